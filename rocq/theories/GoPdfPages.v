(** The objects of pages and contents: how calls add them and how prepare links
    them. *)
From Coq Require Import String List ZArith Lia Bool.
From Coq.Floats Require Import SpecFloat.
From Verif Require Import Base BaseProofs Output OutputSpec OutputProofs Png Crypto PdfSyntax PdfSyntaxProofs Float64 Ttf Subset Text ApiIds GoPdf GoPdfSpec GoPdfFile.
Open Scope Z_scope.
Open Scope list_scope.

(** ** Lists *)

Lemma on_last_snoc : forall A (f : A -> A) l x, on_last f (l ++ [x]) = l ++ [f x].
Proof.
  intros A f l x. induction l as [|a l IH]; [reflexivity|]. cbn [app]. destruct l as [|b l]; [reflexivity|].
  change (a :: on_last f ((b :: l) ++ [x]) = a :: (b :: l) ++ [f x]). rewrite IH. reflexivity.
Qed.
Lemma on_last_nil : forall A (f : A -> A), on_last f [] = [].
Proof. reflexivity. Qed.
Lemma last_cases : forall A (l : list A), l = [] \/ exists a x, l = a ++ [x].
Proof. intros A l. destruct (rev l) as [|x r] eqn:E; [left|right]; apply (f_equal (@rev A)) in E; rewrite rev_involutive in E; [exact E|]. exists (rev r), x. exact E. Qed.
Lemma on_last_len : forall A (f : A -> A) l, List.length (on_last f l) = List.length l.
Proof. intros A f l. destruct (last_cases _ l) as [->|(a & x & ->)]; [reflexivity|]. rewrite on_last_snoc, !app_length. reflexivity. Qed.

Fixpoint mapi {A C} (f : nat -> A -> C) (n : nat) (l : list A) : list C :=
  match l with [] => [] | x :: l => f n x :: mapi f (S n) l end.
Lemma nth_mapi : forall A C (f : nat -> A -> C) l n k, nth_error (mapi f n l) k = option_map (f (n + k)%nat) (nth_error l k).
Proof.
  intros A C f. induction l as [|x l IH]; intros n k; [destruct k; reflexivity|]. destruct k as [|k]; cbn [mapi nth_error option_map].
  - rewrite Nat.add_0_r. reflexivity.
  - rewrite IH. replace (S n + k)%nat with (n + S k)%nat by lia. reflexivity.
Qed.
Lemma mapi_len : forall A C (f : nat -> A -> C) l n, List.length (mapi f n l) = List.length l.
Proof. intros A C f. induction l as [|x l IH]; intros n; [reflexivity|]. cbn [mapi List.length]. rewrite IH. reflexivity. Qed.
Lemma nth_ext : forall A (l l' : list A), (forall k, nth_error l k = nth_error l' k) -> l = l'.
Proof.
  intros A. induction l as [|x l IH]; intros [|y l'] H; [reflexivity|discriminate (H 0%nat)|discriminate (H 0%nat)|].
  pose proof (H 0%nat) as E. cbn in E. injection E as ->. f_equal. apply IH. intros k. apply (H (S k)).
Qed.

(** ** Pages and contents among the objects *)

(** number of the page object, option, contents *)
Definition seen := list (Z * (f64 * f64) * list (Z * list gcache)).
Definition scan_step (st : seen * Z) (o : gobj) : seen * Z :=
  let (ps, i) := st in
  match o_kind o with
  | KPage _ _ opt => (ps ++ [(i, opt, [])], i + 1)
  | KContent _ cs => (on_last (fun p => (fst p, snd p ++ [(i, cs)])) ps, i + 1)
  | _ => (ps, i + 1)
  end.
Definition scan (os : list gobj) : seen := fst (fold_left scan_step os ([], 0)).

Definition sig (o : gobj) : bool := match o_kind o with KPage _ _ _ | KContent _ _ => true | _ => false end.

Lemma scan_index : forall os st, snd (fold_left scan_step os st) = snd st + Z.of_nat (List.length os).
Proof.
  induction os as [|o os IH]; intros (ps, i); cbn [fold_left List.length snd]; [lia|]. rewrite IH. cbn [scan_step].
  destruct (o_kind o); cbn [snd]; lia.
Qed.
Lemma scan_quiet : forall os st, forallb (fun o => negb (sig o)) os = true -> fst (fold_left scan_step os st) = fst st.
Proof.
  induction os as [|o os IH]; intros (ps, i) H; [reflexivity|]. cbn [forallb fold_left] in *. apply andb_true_iff in H. destruct H as (Ho & H).
  rewrite IH by exact H. cbn [scan_step]. unfold sig in Ho. destruct (o_kind o); cbn [fst]; try reflexivity; discriminate.
Qed.
Lemma scan_app : forall a b, forallb (fun o => negb (sig o)) b = true -> scan (a ++ b) = scan a.
Proof. intros a b H. unfold scan. rewrite fold_left_app. apply scan_quiet. exact H. Qed.
Lemma scan_page : forall os o c r opt, o_kind o = KPage c r opt -> scan (os ++ [o]) = scan os ++ [(Z.of_nat (List.length os), opt, [])].
Proof.
  intros os o c r opt E. unfold scan. rewrite fold_left_app. cbn [fold_left]. pose proof (scan_index os ([], 0)) as I1. cbn [snd] in I1.
  destruct (fold_left scan_step os ([], 0)) as (ps, i). cbn [snd fst] in *. unfold scan_step. rewrite E. subst i. reflexivity.
Qed.
Lemma scan_content : forall os o s cs, o_kind o = KContent s cs ->
  scan (os ++ [o]) = on_last (fun p => (fst p, snd p ++ [(Z.of_nat (List.length os), cs)])) (scan os).
Proof.
  intros os o s cs E. unfold scan. rewrite fold_left_app. cbn [fold_left]. pose proof (scan_index os ([], 0)) as I1. cbn [snd] in I1.
  destruct (fold_left scan_step os ([], 0)) as (ps, i). cbn [snd fst] in *. unfold scan_step. rewrite E. subst i. reflexivity.
Qed.

(** ** prepare *)

Definition refs_at (ps : seen) (i : Z) : bytes :=
  flat_map (fun p => if fst (fst p) =? i then flat_map (fun c => g_ref (fst c)) (snd p) else []) ps.
Definition kid_refs (ps : seen) : bytes := flat_map (fun p => g_ref (fst (fst p))) ps.
Definition linked (pages : Z) (ps : seen) (i : nat) (o : gobj) : gobj :=
  mkGO (o_buf o)
    match o_kind o with
    | KPages c k => if Z.of_nat i =? pages then KPages (c + Z.of_nat (List.length ps)) (k ++ kid_refs ps) else KPages c k
    | KPage c r opt => KPage (c ++ refs_at ps (Z.of_nat i)) r opt
    | k => k
    end.

Lemma kind_at_nth : forall g i k, kind_at g i = Ok k -> exists o, nth_error (g_objs g) (Z.to_nat i) = Some o /\ o_kind o = k /\ 0 <= i.
Proof.
  intros g i k H. unfold kind_at, at_ in H. destruct (i <? 0) eqn:E; cbn [bind] in H; [discriminate|].
  destruct (nth_error (g_objs g) (Z.to_nat i)) as [o|] eqn:N; cbn [bind] in H; [|discriminate]. injection H as <-. exists o. apply Z.ltb_ge in E. auto.
Qed.
Lemma nth_kind_at : forall g i o, nth_error (g_objs g) i = Some o -> kind_at g (Z.of_nat i) = Ok (o_kind o).
Proof. intros g i o H. unfold kind_at, at_. destruct (Z.of_nat i <? 0) eqn:E; [apply Z.ltb_lt in E; lia|]. rewrite Nat2Z.id, H. reflexivity. Qed.

Fixpoint enc_of (todo : list gobj) (i e : Z) : Z :=
  match todo with [] => e | o :: t => enc_of t (i + 1) (match o_kind o with KEncrypt _ => i + 1 | _ => e end) end.

Lemma set_objs_twice : forall g a b, g_set_objs (g_set_objs g a) b = g_set_objs g b.
Proof. reflexivity. Qed.

Lemma kid_refs_snoc : forall ps p, kid_refs (ps ++ [p]) = kid_refs ps ++ g_ref (fst (fst p)).
Proof. intros ps p. unfold kid_refs. rewrite flat_map_app. cbn [flat_map]. rewrite app_nil_r. reflexivity. Qed.
Lemma refs_at_snoc : forall ps p i, refs_at (ps ++ [p]) i = refs_at ps i ++ (if fst (fst p) =? i then flat_map (fun c => g_ref (fst c)) (snd p) else []).
Proof. intros ps p i. unfold refs_at. rewrite flat_map_app. cbn [flat_map]. rewrite app_nil_r. reflexivity. Qed.

Lemma prep_ok : forall pages todo done os ps i cur e g g', os = done ++ todo -> fold_left scan_step done ([], 0) = (ps, i) ->
  ((cur = -1 /\ ps = []) \/ (exists a opt cs, 0 <= cur /\ ps = a ++ [(cur, opt, cs)])) ->
  prep_loop todo i pages cur (g_set_enc (g_set_objs g (mapi (linked pages ps) 0 os)) e) = Ok g' ->
  g' = g_set_enc (g_set_objs g (mapi (linked pages (scan os)) 0 os)) (enc_of todo i e).
Proof.
  intros pages. induction todo as [|o todo IH]; intros done os ps i cur e g g' Eo Es Hc H; cbn [prep_loop] in H.
  - injection H as <-. rewrite app_nil_r in Eo. subst done. unfold scan. rewrite Es. reflexivity.
  - assert (Ei : i = Z.of_nat (List.length done)). { pose proof (scan_index done ([], 0)) as X. rewrite Es in X. cbn [snd] in X. lia. }
    assert (Hn : nth_error os (List.length done) = Some o). { rewrite Eo, nth_error_app2 by lia. rewrite Nat.sub_diag. reflexivity. }
    assert (Es' : fold_left scan_step (done ++ [o]) ([], 0) = scan_step (ps, i) o). { rewrite fold_left_app, Es. reflexivity. }
    assert (Eo' : os = (done ++ [o]) ++ todo) by (rewrite <- app_assoc; exact Eo).
    cbn [enc_of].
    destruct (o_kind o) eqn:Ek; try (eapply IH; [exact Eo'|rewrite Es'; unfold scan_step; rewrite Ek; reflexivity|exact Hc|exact H]).
    + (* page *)
      destruct (kind_at _ pages) as [k| | |] eqn:EK in H; cbn [bind] in H; try discriminate. destruct k; try discriminate.
      apply kind_at_nth in EK. destruct EK as (o2 & N2 & K2 & P2). cbn [g_objs g_set_enc g_set_objs] in N2.
      rewrite nth_mapi in N2. destruct (nth_error os (Z.to_nat pages)) as [q|] eqn:Eq; cbn [option_map] in N2; [|discriminate]. injection N2 as <-.
      cbn [linked o_kind] in K2. rewrite ?Nat.add_0_l, Z2Nat.id, Z.eqb_refl in K2 by exact P2.
      destruct (o_kind q) eqn:Eqk; try discriminate. injection K2 as <- <-.
      unfold put_kind in H. cbn [g_objs g_set_enc g_set_objs] in H.
      match type of H with prep_loop _ _ _ _ (g_set_objs (g_set_enc ?x _) ?y) = _ =>
        change (prep_loop todo (i + 1) pages i (g_set_enc (g_set_objs g y) e) = Ok g') in H end.
      eapply (IH (done ++ [o]) os (ps ++ [(i, opt, [])]) (i + 1) i e g g' Eo'); [rewrite Es'; unfold scan_step; rewrite Ek; reflexivity| |].
      { right. exists ps, opt, []. split; [lia|reflexivity]. }
      rewrite <- H. do 3 f_equal. apply nth_ext. intros m. rewrite nth_mapi.
      destruct (Nat.eq_dec m (Z.to_nat pages)) as [->|Ne].
      * rewrite nth_set, nth_mapi, Eq. cbn [option_map]. f_equal. unfold linked. rewrite Eqk, ?Nat.add_0_l, Z2Nat.id, Z.eqb_refl by exact P2. cbn [o_buf].
        rewrite app_length, kid_refs_snoc, <- app_assoc. cbn [List.length fst]. do 2 f_equal. lia.
      * rewrite nth_set_other by exact Ne. rewrite nth_mapi. destruct (nth_error os m) as [q'|] eqn:Em; [|reflexivity]. cbn [option_map]. f_equal.
        unfold linked. f_equal. destruct (o_kind q') eqn:E'; try reflexivity.
        -- destruct (Z.of_nat (0 + m) =? pages) eqn:Ez; [apply Z.eqb_eq in Ez; lia|reflexivity].
        -- rewrite refs_at_snoc. cbn [fst snd flat_map]. destruct (i =? _); rewrite app_nil_r; reflexivity.
    + (* content *)
      destruct (cur =? -1) eqn:Ec.
      * apply Z.eqb_eq in Ec. destruct Hc as [(_ & ->)|(a & opt & cs & Hc & _)]; [|lia].
        eapply (IH (done ++ [o]) os [] (i + 1) cur e g g' Eo'); [rewrite Es'; unfold scan_step; rewrite Ek; reflexivity|left; auto|exact H].
      * apply Z.eqb_neq in Ec. destruct Hc as [(Hc & _)|(a & opt & cs & Hc & Eps)]; [congruence|].
        destruct (kind_at _ cur) as [k| | |] eqn:EK in H; cbn [bind] in H; try discriminate. destruct k; try discriminate.
        apply kind_at_nth in EK. destruct EK as (o2 & N2 & K2 & P2). cbn [g_objs g_set_enc g_set_objs] in N2.
        rewrite nth_mapi in N2. destruct (nth_error os (Z.to_nat cur)) as [q|] eqn:Eq; cbn [option_map] in N2; [|discriminate]. injection N2 as <-.
        cbn [linked o_kind] in K2. rewrite ?Nat.add_0_l, Z2Nat.id in K2 by exact P2.
        destruct (o_kind q) eqn:Eqk; try discriminate; [destruct (cur =? pages); discriminate|]. injection K2 as <- <- <-.
        unfold put_kind in H. cbn [g_objs g_set_enc g_set_objs] in H.
        match type of H with prep_loop _ _ _ _ (g_set_objs (g_set_enc ?x _) ?y) = _ =>
          change (prep_loop todo (i + 1) pages cur (g_set_enc (g_set_objs g y) e) = Ok g') in H end.
        eapply (IH (done ++ [o]) os (a ++ [(cur, opt, cs ++ [(i, caches)])]) (i + 1) cur e g g' Eo').
        { rewrite Es'. unfold scan_step. rewrite Ek, Eps, on_last_snoc. reflexivity. }
        { right. eexists _, _, _. split; [exact Hc|reflexivity]. }
        rewrite <- H. do 3 f_equal. apply nth_ext. intros m. rewrite nth_mapi.
        destruct (Nat.eq_dec m (Z.to_nat cur)) as [->|Ne].
        -- rewrite nth_set, nth_mapi, Eq. cbn [option_map]. f_equal. unfold linked. rewrite Eqk, ?Nat.add_0_l, Z2Nat.id by exact P2. cbn [o_buf].
           rewrite Eps, !refs_at_snoc. cbn [fst snd]. rewrite Z.eqb_refl, flat_map_app. cbn [flat_map fst]. rewrite app_nil_r, <- !app_assoc. reflexivity.
        -- rewrite nth_set_other by exact Ne. rewrite nth_mapi. destruct (nth_error os m) as [q'|] eqn:Em; [|reflexivity]. cbn [option_map]. f_equal.
           unfold linked. f_equal. destruct (o_kind q') eqn:E'; try reflexivity.
           ++ rewrite Eps, !kid_refs_snoc, !app_length. cbn [fst snd List.length]. reflexivity.
           ++ rewrite Eps, !refs_at_snoc. cbn [fst snd]. destruct (cur =? Z.of_nat (0 + m)) eqn:Ez; [apply Z.eqb_eq in Ez; lia|reflexivity].
Qed.
