(** Templates: which field a key means. *)
From Coq Require Import String List ZArith Lia Bool Permutation.
From Coq.Floats Require Import SpecFloat.
From Verif Require Import Base BaseProofs Output Props PdfData Float64 Text Wrap Parse Api ApiSpec ApiProofs ApiIds ApiFrames ApiImages ApiMore Render.
Open Scope Z_scope.
Open Scope list_scope.

Lemma assoc_put : forall (A : Type) k (v : A) m j, assoc j (put_key k v m) = if beqb k j then Some v else assoc j m.
Proof.
  induction m as [|[a x] m IH]; intros j; cbn; [reflexivity|].
  destruct (beqb a k) eqn:E; cbn.
  - apply beqb_eq in E. subst. destruct (beqb k j); reflexivity.
  - rewrite IH. destruct (beqb k j) eqn:Ek; [|reflexivity]. apply beqb_eq in Ek. subst. rewrite E. reflexivity.
Qed.
Lemma toMap_snoc : forall fs f, toMap (fs ++ [f]) = put_key (fi_key f) f (toMap fs).
Proof. intros fs f. unfold toMap. rewrite fold_left_app. reflexivity. Qed.
(** The last definition wins. *)
Lemma toMap_last : forall fs1 f fs2, (forall g, In g fs2 -> fi_key g <> fi_key f) -> assoc (fi_key f) (toMap (fs1 ++ f :: fs2)) = Some f.
Proof.
  intros fs1 f fs2. induction fs2 as [|g fs2 IH] using rev_ind; intros H.
  - rewrite toMap_snoc, assoc_put, beqb_refl. reflexivity.
  - change (fs1 ++ f :: fs2 ++ [g]) with (fs1 ++ (f :: fs2) ++ [g]). rewrite app_assoc, toMap_snoc, assoc_put.
    destruct (beqb (fi_key g) (fi_key f)) eqn:E.
    + apply beqb_eq in E. exfalso. apply (H g); [apply in_or_app; right; left; reflexivity|exact E].
    + apply IH. intros h Hh. apply H. apply in_or_app. auto.
Qed.
Lemma toMap_none : forall fs key, (forall g, In g fs -> fi_key g <> key) -> assoc key (toMap fs) = None.
Proof.
  intros fs key. induction fs as [|g fs IH] using rev_ind; intros H; [reflexivity|]. rewrite toMap_snoc, assoc_put.
  destruct (beqb (fi_key g) key) eqn:E.
  - apply beqb_eq in E. exfalso. apply (H g); [apply in_or_app; right; left; reflexivity|exact E].
  - apply IH. intros h Hh. apply H. apply in_or_app. auto.
Qed.
(** The keys of the map: every key once. *)
Lemma put_keys : forall (A : Type) k (v : A) m, map fst (put_key k v m) = map fst m \/ (~ In k (map fst m) /\ map fst (put_key k v m) = map fst m ++ [k]).
Proof.
  induction m as [|[a x] m IH]; cbn; [right; split; [tauto|reflexivity]|]. destruct (beqb a k) eqn:E; cbn; [left; reflexivity|].
  destruct IH as [->|[N ->]]; [left; reflexivity|right]. split; [|reflexivity]. intros [X|X]; [subst; rewrite beqb_refl in E; discriminate|exact (N X)].
Qed.
Lemma toMap_keys : forall fs, NoDup (map fst (toMap fs)) /\ forall k, In k (map fst (toMap fs)) <-> In k (map fi_key fs).
Proof.
  induction fs as [|f fs IH] using rev_ind; [split; [constructor|reflexivity]|]. destruct IH as [D K]. rewrite toMap_snoc, map_app. cbn.
  destruct (put_keys _ (fi_key f) f (toMap fs)) as [E|[N E]]; rewrite E.
  - split; [exact D|]. intros k. rewrite in_app_iff, K. split; [tauto|]. intros [X|[<-|[]]]; [exact X|].
    apply K. assert (Hi : assoc (fi_key f) (put_key (fi_key f) f (toMap fs)) = Some f) by (rewrite assoc_put, beqb_refl; reflexivity).
    apply assoc_in in Hi. rewrite <- E. apply in_map_iff. exists (fi_key f, f). auto.
  - split.
    + apply nodup_join; [exact D|constructor; [intros []|constructor]|]. intros x Hx [<-|[]]. exact (N Hx).
    + intros k. rewrite !in_app_iff, K. reflexivity.
Qed.

Lemma text_unknown : forall fs br key text s, (forall g, In g fs -> fi_key g <> key) -> render_text (toMap fs) br key text s = Ok (s, None).
Proof. intros fs br key text s H. unfold render_text. rewrite (toMap_none _ _ H). reflexivity. Qed.
Lemma img_unknown : forall w b fs key i s, (forall g, In g fs -> fi_key g <> key) -> render_img w b (toMap fs) key i s = Ok (s, None).
Proof. intros w b fs key i s H. unfold render_img. rewrite (toMap_none _ _ H). reflexivity. Qed.

(** The calls Text stands for. *)
Definition field_calls (f : field) (br : breaker) (text : bytes) : list call :=
  [KSetFont (fi_font f) [] (fi_size f);
   if fi_wrap f then KWrap text (fi_page f) (fi_x f) (fi_y f) (fi_w f) (fi_h f) (fi_align f) None br
   else KInsert text (fi_page f) (fi_x f) (fi_y f) (fi_w f) (fi_h f) (fi_align f) None].

Lemma text_known : forall w fuel fs1 f fs2 br text s s' e, (forall g, In g fs2 -> fi_key g <> fi_key f) ->
  render_text (toMap (fs1 ++ f :: fs2)) br (fi_key f) text s = Ok (s', e) ->
  (exists e0, call_of w fuel (KSetFont (fi_font f) [] (fi_size f)) s = Ok (s', Some e0) /\ e = Some e0 /\ s' = s) \/
  (exists log, history w fuel (field_calls f br text) s = Ok (s', log) /\ map snd log = [None; e]).
Proof.
  intros w fuel fs1 f fs2 br text s s' e K H. unfold render_text in H. rewrite (toMap_last _ _ _ K) in H.
  apply bind_ok in H as ([s1 e1] & E & H). cbn [fst snd] in H. destruct e1 as [e1|].
  - left. exists e1. unfold fails in H. assert (s' = s1) by congruence. assert (e = Some e1) by congruence. subst. split; [exact E|]. split; [reflexivity|].
    unfold setFont in E. destruct (lookup _ _); unfold ok, fails in E; congruence.
  - right. unfold field_calls. cbn [history]. cbn [call_of] in *. rewrite E. cbn [bind fst snd].
    destruct (fi_wrap f); cbn [call_of]; rewrite H; cbn [bind fst snd]; eexists; split; reflexivity.
Qed.
Lemma img_known : forall w fuel b fs1 f fs2 i s, (forall g, In g fs2 -> fi_key g <> fi_key f) ->
  render_img w b (toMap (fs1 ++ f :: fs2)) (fi_key f) i s = call_of w fuel (KImg64 b i (fi_page f) (fi_x f) (fi_y f) (fi_w f) (fi_h f)) s.
Proof. intros w fuel b fs1 f fs2 i s K. unfold render_img. rewrite (toMap_last _ _ _ K). reflexivity. Qed.

(** ShowDesignView: one text per key. *)
Definition text_of (c : contenter) : list (bytes * Z) := match c with CText _ c => [(ct_text c, ct_page c)] | _ => [] end.
Lemma insert_adds : forall t pg x y w h al c s s' e, insert_text t pg x y w h al c s = Ok (s', e) -> lookup (s_fname s) (s_names s) <> None ->
  flat_map text_of (s_cont s') = flat_map text_of (s_cont s) ++ [(t, pg)] /\ s_names s' = s_names s.
Proof.
  intros t pg x y w h al c s s' e H N. unfold insert_text in H. apply bind_ok in H as (ph & _ & H). cbv beta in H.
  destruct (lookup _ _) as [id|]; [|congruence]. destruct (nth_error _ id) as [f|]; [|discriminate].
  destruct (font_add f t) as [f' r]. cbv zeta in H.
  destruct r; try discriminate; unfold ok, fails in H; injection H as <- <-; cbn; (split; [|reflexivity]); rewrite flat_map_app; reflexivity.
Qed.
Lemma design_adds : forall l s s', design_loop l s = Ok s' -> (forall k f, In (k, f) l -> lookup (fi_font f) (s_names s) <> None) ->
  flat_map text_of (s_cont s') = flat_map text_of (s_cont s) ++ map (fun x => (B"#" ++ fst x, fi_page (snd x))) l.
Proof.
  induction l as [|[k f] l IH]; intros s s' H R; cbn [design_loop] in H; [assert (s' = s) by congruence; subst; cbn [map]; rewrite app_nil_r; reflexivity|].
  apply bind_ok in H as ([s1 e1] & E1 & H). cbn [fst snd] in H. apply bind_ok in H as ([s2 e2] & E2 & H). cbn [fst snd] in H.
  pose proof (R k f (or_introl eq_refl)) as Rf. unfold setFont in E1. destruct (lookup (fi_font f) (s_names s)) as [id|] eqn:L; [|congruence].
  unfold ok in E1. injection E1 as <- <-. apply insert_adds in E2 as [A N]; [|cbn; congruence]. cbn in N.
  apply IH in H; [|intros k' f' Hi; rewrite N; exact (R k' f' (or_intror Hi))]. rewrite H, A. cbn [map fst snd]. rewrite <- app_assoc. reflexivity.
Qed.
Theorem design_view : forall fs l s s', Permutation l (toMap fs) -> showDesignView l s = Ok s' ->
  (forall f, In f fs -> lookup (fi_font f) (s_names s) <> None) ->
  exists new, flat_map text_of (s_cont s') = flat_map text_of (s_cont s) ++ new /\ NoDup (map fst new) /\
    forall t, In t (map fst new) <-> exists f, In f fs /\ t = B"#" ++ fi_key f.
Proof.
  intros fs l s s' P H R. unfold showDesignView in H.
  assert (Src : forall k f, In (k, f) (toMap fs) -> In f fs).
  { clear. induction fs as [|f fs IH] using rev_ind; intros k g Hg; [destruct Hg|]. rewrite toMap_snoc in Hg.
    assert (X : forall m : list (bytes * field), In (k, g) (put_key (fi_key f) f m) -> g = f \/ In (k, g) m).
    { clear. induction m as [|[a x] m IH]; cbn; [intros [E|[]]; left; congruence|]. destruct (beqb a (fi_key f)); cbn.
      - intros [E|E]; [left; congruence|right; auto].
      - intros [E|E]; [right; auto|]. destruct (IH E); auto. }
    apply X in Hg as [->|Hg]; apply in_or_app; [right; left; reflexivity|left; eauto]. }
  apply design_adds in H.
  2: { intros k f Hi. apply R. eapply Src. eapply Permutation_in; eauto. }
  set (new := map (fun x => (B"#" ++ fst x, fi_page (snd x))) l) in *. exists new. split.
  - rewrite H. f_equal. unfold showCellBorder. cbn. rewrite flat_map_app. cbn. apply app_nil_r.
  - assert (E : map fst new = map (fun k => B"#" ++ k) (map fst l)) by (unfold new; rewrite !map_map; reflexivity).
    unfold bytes in *. rewrite E. destruct (toMap_keys fs) as [D K].
    assert (Pk : Permutation (map fst l) (map fst (toMap fs))) by (apply Permutation_map; exact P). split.
    + apply FinFun.Injective_map_NoDup; [intros a b X; apply app_inv_head in X; exact X|]. eapply Permutation_NoDup; [symmetry; exact Pk|exact D].
    + intros t. rewrite in_map_iff. split.
      * intros (k & <- & Hk). apply (Permutation_in _ Pk) in Hk. apply K in Hk. apply in_map_iff in Hk as (f & <- & Hf). eauto.
      * intros (f & Hf & ->). exists (fi_key f). split; [reflexivity|]. apply (Permutation_in _ (Permutation_sym Pk)). apply K. apply in_map. exact Hf.
Qed.
