(** Invariants of call histories. *)
From Coq Require Import String List ZArith Lia Bool Permutation.
From Coq.Floats Require Import SpecFloat.
From Verif Require Import Base BaseProofs Output Props PdfData Crawl Inject Md5Rc4 Crypto Png Utf8 Float64 Ttf Subset Text Wrap Parse Api ApiSpec.
Open Scope Z_scope.
Open Scope list_scope.

(** What never changes about a font. *)
Definition skel (f : font) : bytes * ttf := (fd_family f, fd_ttf f).
Definition skels (s : state) : list (bytes * ttf) := map skel (s_fonts s).
Definition curr (s : state) : bytes * Z * Z := (s_fname s, s_style s, s_size s).

Record same (s s' : state) : Prop := mkSame {
  same_names : s_names s' = s_names s;
  same_skels : skels s' = skels s;
  same_curr : curr s' = curr s }.
Lemma same_refl : forall s, same s s. Proof. intros s. split; reflexivity. Qed.
Lemma same_trans : forall a b c, same a b -> same b c -> same a c.
Proof. intros a b c [A1 A2 A3] [B1 B2 B3]. split; congruence. Qed.

Lemma map_set_nth : forall (A C : Type) (g : A -> C) (h : A -> A) l n, (forall a, g (h a) = g a) -> map g (set_nth n h l) = map g l.
Proof. induction l as [|a l IH]; intros [|n] H; cbn; auto; rewrite ?H, ?IH by auto; reflexivity. Qed.
Lemma map_set_const : forall (A C : Type) (g : A -> C) l n (a b : A), nth_error l n = Some a -> g b = g a -> map g (set_nth n (fun _ => b) l) = map g l.
Proof.
  induction l as [|x l IH]; intros [|n] a b H E; cbn in *; try discriminate.
  - assert (x = a) by congruence. subst. rewrite E. reflexivity.
  - f_equal. eapply IH; eauto.
Qed.

Lemma insert_text_same : forall t pg x y w h al c s s' e, insert_text t pg x y w h al c s = Ok (s', e) -> same s s'.
Proof.
  intros t pg x y w h al c s s' e H. unfold insert_text in H.
  apply bind_ok in H as (ph & _ & H). cbv beta in H.
  destruct (lookup (s_fname s) (s_names s)) as [id|]; [|unfold fails in H; injection H as <- <-; apply same_refl].
  destruct (nth_error (s_fonts s) id) as [f|] eqn:N; [|discriminate].
  unfold font_add in H. destruct (add_chars (fd_ttf f) t (fd_map f)) as [m r]. cbv beta iota zeta in H.
  assert (S : same s (upd_font (with_cont s (s_cont s ++ [CText id (mkText t c (s_style s) (s_size s) pg x y w h al (s_line s) ph)])) id (fun _ => set_map f m))).
  { split; try reflexivity. unfold skels. cbn. exact (map_set_const _ _ skel _ _ _ (set_map f m) N eq_refl). }
  destruct r; try discriminate; unfold ok, fails in H; assert (s' = upd_font (with_cont s (s_cont s ++ [CText id (mkText t c (s_style s) (s_size s) pg x y w h al (s_line s) ph)])) id (fun _ => set_map f m)) by congruence; subst; exact S.
Qed.

Lemma insert_lines_same : forall ls pg x w h al c s s' e, insert_lines ls pg x w h al c s = Ok (s', e) -> same s s'.
Proof.
  induction ls as [|[t y] ls IH]; intros pg x w h al c s s' e H; cbn [insert_lines] in H.
  - unfold ok in H. injection H as <- <-. apply same_refl.
  - apply bind_ok in H as ([s1 e1] & E & H). cbn [fst snd] in H. apply insert_text_same in E.
    destruct e1; [unfold fails in H; injection H as <- <-; exact E|]. eapply same_trans; [exact E|eauto].
Qed.

Lemma upd_map_same : forall s id m, same s (upd_font s id (fun f => set_map f m)).
Proof. intros. split; try reflexivity. unfold skels. cbn. apply map_set_nth. reflexivity. Qed.

Lemma wrap_same : forall t pg x y w h al c b s s' e, insertWrapText t pg x y w h al c b s = Ok (s', e) -> same s s'.
Proof.
  intros t pg x y w h al c b s s' e H. unfold insertWrapText in H. destruct b as [b|]; [|eapply insert_text_same; eauto].
  destruct (b t) as [toks| | |]; try discriminate; [|unfold fails in H; injection H as <- <-; apply same_refl].
  destruct (forallb _ toks); [unfold ok in H; injection H as <- <-; apply same_refl|].
  destruct (lookup _ _) as [id|]; [|discriminate]. destruct (nth_error (s_fonts s) id) as [f|]; [|discriminate].
  apply bind_ok in H as (ph & _ & H). cbv beta in H.
  destruct (wrap_lines _ _ _ _ _ _) as [f' r]. cbv zeta in H.
  destruct r; try discriminate.
  - apply insert_lines_same in H. eapply same_trans; [apply upd_map_same|exact H].
  - unfold fails in H. injection H as <- <-. apply upd_map_same.
Qed.

Lemma measure_same : forall t s s' r, measureTextWidth t s = Ok (s', r) -> same s s'.
Proof.
  intros t s s' r H. unfold measureTextWidth in H. destruct (lookup _ _) as [id|]; [|discriminate].
  destruct (nth_error (s_fonts s) id) as [f|]; [|discriminate]. destruct (measure_text _ _ _) as [f' q].
  apply bind_ok in H as (ph & _ & H). cbv beta zeta in H.
  destruct q; try discriminate; injection H as <- <-; apply upd_map_same.
Qed.

Lemma new_image_same : forall w b i s s' e, new_image w b i s = Ok (s', e) -> same s s'.
Proof.
  intros w b i s s' e H. unfold new_image in H. destruct (insertImgObj _ _ _ _ _ _) as [[p d]| | |]; try discriminate;
    unfold ok, fails in H; injection H as <- <-; split; reflexivity.
Qed.
Lemma place_same : forall id pg x y w h s s' e, place_image id pg x y w h s = Ok (s', e) -> same s s'.
Proof.
  intros id pg x y w h s s' e H. unfold place_image in H. apply bind_ok in H as (ph & _ & H). unfold ok in H.
  injection H as <- <-. split; reflexivity.
Qed.
Lemma insertImg_same : forall wd b i pg x y w h s s' e, insertImg wd b i pg x y w h s = Ok (s', e) -> same s s'.
Proof.
  intros wd b i pg x y w h s s' e H. unfold insertImg in H. apply bind_ok in H as ([s1 e1] & E & H). cbn [fst snd] in H.
  apply new_image_same in E. destruct e1; [unfold fails in H; injection H as <- <-; exact E|].
  apply place_same in H. eapply same_trans; eauto.
Qed.
Lemma cache_same : forall wd b i pg x y w h s s' e, insertImgWithCache wd b i pg x y w h s = Ok (s', e) -> same s s'.
Proof.
  intros wd b i pg x y w h s s' e H. unfold insertImgWithCache in H. cbv zeta in H.
  destruct (lookup _ _) as [id|]; [eapply place_same; eauto|].
  apply bind_ok in H as ([s1 e1] & E & H). cbn [fst snd] in H. apply new_image_same in E.
  destruct e1; [unfold fails in H; injection H as <- <-; exact E|].
  destruct (s_cache s) as [c|]; [|discriminate]. apply place_same in H.
  eapply same_trans; [exact E|]. destruct H as [H1 H2 H3]. split; [exact H1|exact H2|exact H3].
Qed.
Lemma page_same : forall s o s' e, page_call s o = Ok (s', e) -> same s s'.
Proof.
  intros s o s' e H. unfold page_call in H. destruct o as [[p q]| | |]; try discriminate; unfold fails in H; injection H as <- <-; split; reflexivity.
Qed.

(** Saving *)
Lemma font_build_skel : forall w f n f', font_build w f n = Ok f' -> skel f' = skel f.
Proof.
  intros w f n f' H. unfold font_build in H. apply bind_ok in H as (cid & _ & H). apply bind_ok in H as (dict & _ & H). cbv beta in H.
  destruct (fd_bufs f) as [[[[b1 b2] b3] b4] b5]. injection H as <-. reflexivity.
Qed.
Lemma build_fonts_skels : forall w ids fs n, map skel (fst (build_fonts w ids fs n)) = map skel fs.
Proof.
  induction ids as [|id ids IH]; intros fs n; cbn [build_fonts]; [reflexivity|].
  destruct (nth_error fs id) as [f|] eqn:N; [|reflexivity].
  destruct (font_build w f (n + 1)) as [f'| | |] eqn:E; try reflexivity.
  rewrite IH. eapply map_set_const; eauto using font_build_skel.
Qed.
Lemma set_index_skels : forall idx fs, map skel (fold_left set_index idx fs) = map skel fs.
Proof.
  induction idx as [|h idx IH]; intros fs; cbn [fold_left]; [reflexivity|]. rewrite IH. apply map_set_nth. reflexivity.
Qed.

Lemma save_same : forall w fuel ch s s' r, saveTo w fuel ch s = Ok (s', r) -> same s s'.
Proof.
  intros w fuel ch s s' r H. unfold saveTo in H. cbv zeta in H.
  set (order := map _ (ch_ord ch [31] _ _)) in H.
  pose proof (build_fonts_skels w order (s_fonts s) (maxID (objs (d_pdf (s_doc s))))) as K1.
  destruct (build_fonts w order (s_fonts s) _) as [fs1 r1]. cbn [fst] in K1.
  assert (S1 : same s (with_fonts s fs1)) by (split; [reflexivity|exact K1|reflexivity]).
  destruct r1 as [next|e| |]; try discriminate; [|injection H as <- <-; exact S1].
  destruct (injectFonts _ _ _) as [[p1 idx]|e| |]; try discriminate; [|injection H as <- <-; exact S1].
  pose proof (set_index_skels idx fs1) as K2. rewrite K1 in K2.
  set (fs2 := fold_left set_index idx fs1) in *. clearbody fs2.
  destruct (injectImgs _ _ _) as [[p4 names]|e| |]; try discriminate; [|injection H as <- <-; split; [reflexivity|exact K2|reflexivity]].
  destruct (injectContent _ _ _ _ _ _) as [p5|e| |]; try discriminate.
  - destruct (s_prot s) as [pr|].
    + apply bind_ok in H as (os & _ & H). injection H as <- <-.
      destruct (match flat_map _ _ ++ _ with [] => true | _ => _ end); split; try reflexivity; exact K2.
    + injection H as <- <-. destruct (match flat_map _ _ ++ _ with [] => true | _ => _ end); split; try reflexivity; exact K2.
  - injection H as <- <-. destruct (match flat_map _ _ ++ _ with [] => true | _ => _ end); split; try reflexivity; exact K2.
Qed.

Definition about_fonts (c : call) : bool := match c with KOpen _ | KAddFont _ _ _ | KSetFont _ _ _ => true | _ => false end.
Lemma call_same : forall w fuel c s s' e, about_fonts c = false -> call_of w fuel c s = Ok (s', e) -> same s s'.
Proof.
  intros w fuel c s s' e A H. destruct c; try discriminate; cbn [call_of] in H.
  - unfold textriseOverride in H. destruct (lookup _ _); unfold ok, fails in H; injection H as <- <-; [|apply same_refl].
    split; try reflexivity. unfold skels. cbn. apply map_set_nth. reflexivity.
  - unfold kernOverride in H. destruct (lookup _ _); unfold ok, fails in H; injection H as <- <-; [|apply same_refl].
    split; try reflexivity. unfold skels. cbn. apply map_set_nth. reflexivity.
  - eapply insert_text_same; eauto.
  - eapply wrap_same; eauto.
  - apply bind_ok in H as ([s1 r] & E & H). cbn [fst snd] in H. injection H as <- <-. eapply measure_same; eauto.
  - eapply insertImg_same; eauto.
  - unfold insertImgBase64 in H. destruct (w_base64 w b64); try discriminate; [eapply insertImg_same; eauto|].
    unfold fails in H. injection H as <- <-. apply same_refl.
  - eapply cache_same; eauto.
  - unfold ok in H. injection H as <- <-. split; reflexivity.
  - eapply page_same; eauto.
  - eapply page_same; eauto.
  - eapply page_same; eauto.
  - unfold setProt in H. destruct (setProtection _ _ _ _); try discriminate; unfold ok, fails in H; injection H as <- <-; split; reflexivity.
  - apply bind_ok in H as ([s1 r] & E & H). cbn [fst snd] in H. injection H as <- <-. eapply save_same; eauto.
Qed.

(** ** The invariant *)
Lemma assoc_snoc : forall (A : Type) k (m : list (bytes * A)) n v, assoc n (m ++ [(k, v)]) =
  match assoc n m with Some a => Some a | None => if beqb k n then Some v else None end.
Proof. induction m as [|[a x] m IH]; intros n v; cbn; [reflexivity|]. destruct (beqb a n); auto. Qed.

Lemma history_snoc : forall w fuel cs c s s' log, history w fuel (cs ++ [c]) s = Ok (s', log) ->
  exists s1 log1 e, history w fuel cs s = Ok (s1, log1) /\ call_of w fuel c s1 = Ok (s', e) /\ log = log1 ++ [(c, e)].
Proof.
  induction cs as [|c0 cs IH]; intros c s s' log H; cbn [app history] in H.
  - apply bind_ok in H as ([s1 e] & E & H). cbn [bind fst snd] in H. injection H as <- <-.
    exists s, [], e. repeat split; auto.
  - apply bind_ok in H as ([s1 e] & E & H). cbn [fst snd] in H. apply bind_ok in H as ([s2 l2] & E2 & H). cbn [fst snd] in H.
    injection H as <- <-. destruct (IH _ _ _ _ E2) as (s3 & l3 & e3 & H3 & C3 & ->).
    exists s3, ((c0, e) :: l3), e3. cbn [history]. rewrite E. cbn [bind fst snd]. rewrite H3. cbn [bind fst snd]. auto.
Qed.

Record inv (log : list entry) (s : state) : Prop := mkInv {
  inv_nil : s_names s = None <-> forallb (fun e => negb (opens e)) log = true;
  inv_reg : forall n k, lookup n (s_names s) = Some k <-> exists file, registered log n k file;
  inv_count : List.length (s_fonts s) = count adds_font log;
  inv_font : forall n k file, registered log n k file ->
    exists f d, nth_error (s_fonts s) k = Some f /\ fd_family f = n /\ file = Some d /\ parseTtf d = Ok (fd_ttf f);
  inv_sel : (exists n st sz, selected log n st sz /\ curr s = (n, getConvertedStyle st, sz))
    \/ (forallb (fun e => negb (sets_font e)) log = true /\ curr s = ([], 0, 0)) }.

Lemma snoc_split : forall (A : Type) (l : list A) e b x a, l ++ [e] = b ++ x :: a ->
  (a = [] /\ b = l /\ x = e) \/ (exists a', a = a' ++ [e] /\ l = b ++ x :: a').
Proof.
  intros A l e b x a H. destruct a as [|y a _] using rev_ind.
  - left. apply app_inj_tail in H as [-> ->]. auto.
  - right. exists a. change (x :: a ++ [y]) with ((x :: a) ++ [y]) in H. rewrite app_assoc in H.
    apply app_inj_tail in H as [-> ->]. auto.
Qed.
Lemma forallb_snoc : forall (A : Type) (f : A -> bool) l x, forallb f (l ++ [x]) = forallb f l && f x.
Proof. intros. rewrite forallb_app. cbn. rewrite andb_true_r. reflexivity. Qed.

Lemma unset_snoc : forall (log : list entry) e, forallb (fun e => negb (sets_font e)) log = true -> sets_font e = false ->
  forallb (fun e => negb (sets_font e)) (log ++ [e]) = true.
Proof. intros log e F E. rewrite forallb_snoc, F, E. reflexivity. Qed.
Lemma unopen_snoc : forall (log : list entry) e, forallb (fun e => negb (opens e)) (log ++ [e]) = true <->
  forallb (fun e => negb (opens e)) log = true /\ opens e = false.
Proof. intros log e. rewrite forallb_snoc, andb_true_iff, negb_true_iff. tauto. Qed.

Lemma registered_snoc : forall log e n k file, registered (log ++ [e]) n k file <->
  (exists b, e = (KAddFont n file b, None) /\ k = count adds_font log) \/ (opens e = false /\ registered log n k file).
Proof.
  intros log e n k file. split.
  - intros (b & y & a & E & O & ->). destruct (snoc_split _ _ _ _ _ _ E) as [(-> & -> & <-)|(a' & -> & ->)].
    + left. exists y. auto.
    + right. rewrite forallb_snoc in O. apply andb_true_iff in O as [O1 O2]. split; [destruct (opens e); auto; discriminate|].
      exists b, y, a'. auto.
  - intros [(b & -> & ->)|(O & b & y & a & -> & Oa & ->)].
    + exists log, b, []. auto.
    + exists b, y, (a ++ [e]). split; [rewrite <- app_assoc; reflexivity|]. split; [|reflexivity].
      rewrite forallb_snoc, Oa, O. reflexivity.
Qed.
Lemma selected_snoc : forall log e n st sz, selected log n st sz -> sets_font e = false -> selected (log ++ [e]) n st sz.
Proof.
  intros log e n st sz (b & a & -> & H) E. exists b, (a ++ [e]). split; [rewrite <- app_assoc; reflexivity|].
  rewrite forallb_snoc, H, E. reflexivity.
Qed.
Lemma count_snoc : forall f log e, count f (log ++ [e]) = (count f log + if f e then 1 else 0)%nat.
Proof. intros. unfold count. rewrite filter_app, app_length. cbn. destruct (f e); reflexivity. Qed.
Lemma registered_lt : forall log n k file, registered log n k file -> (k < count adds_font log)%nat.
Proof.
  intros log n k file (b & y & a & -> & _ & ->). unfold count. rewrite filter_app, app_length. cbn [filter adds_font List.length]. unfold entry in *. lia.
Qed.

Lemma skel_nth : forall s s' k f, skels s' = skels s -> nth_error (s_fonts s) k = Some f ->
  exists f', nth_error (s_fonts s') k = Some f' /\ skel f' = skel f.
Proof.
  intros s s' k f E N. unfold skels in E.
  assert (X : nth_error (map skel (s_fonts s')) k = Some (skel f)) by (rewrite E; apply map_nth_error; exact N).
  destruct (nth_error (s_fonts s') k) as [f'|] eqn:N'.
  - exists f'. split; [reflexivity|]. rewrite (map_nth_error skel _ _ N') in X. congruence.
  - apply nth_error_None in N'. assert (Y : nth_error (map skel (s_fonts s')) k = None) by (apply nth_error_None; rewrite map_length; exact N').
    congruence.
Qed.

(** A step that is not about fonts. *)
Lemma inv_same : forall log s s' e, inv log s -> same s s' -> opens e = false -> adds_font e = false -> sets_font e = false ->
  (forall n f b, e <> (KAddFont n f b, None)) -> inv (log ++ [e]) s'.
Proof.
  intros log s s' e [I1 I2 I3 I4 I5] [S1 S2 S3] O A F N. split.
  - rewrite S1, I1, unopen_snoc. tauto.
  - intros n k. rewrite S1, I2. split; intros (file & R); exists file.
    + apply registered_snoc. auto.
    + apply registered_snoc in R as [(b & X & _)|[_ R]]; [exfalso; eapply N; eauto|exact R].
  - rewrite count_snoc, A, Nat.add_0_r, <- I3. pose proof (f_equal (@List.length _) S2) as L. unfold skels in L.
    rewrite !map_length in L. exact L.
  - intros n k file R. apply registered_snoc in R as [(b & X & _)|[_ R]]; [exfalso; eapply N; eauto|].
    destruct (I4 _ _ _ R) as (f & d & Nf & Fa & Fi & Pa). destruct (skel_nth _ s' _ _ S2 Nf) as (f' & Nf' & K).
    unfold skel in K. injection K as K1 K2. exists f', d. rewrite K1, K2. auto.
  - destruct I5 as [(n & st & sz & Se & C)|(Fo & C)].
    + left. exists n, st, sz. split; [apply selected_snoc; auto|congruence].
    + right. split; [apply unset_snoc; auto|congruence].
Qed.

Lemma open_shape : forall w fuel raw s s' e, openFrom w fuel raw s = Ok (s', e) ->
  s_names s' = Some [] /\ s_fonts s' = s_fonts s /\ curr s' = curr s.
Proof.
  intros w fuel raw s s' e H. unfold openFrom in H. cbv zeta in H. destruct (PDFParse _ _ _ _) as [d r].
  destruct r; try discriminate; unfold ok, fails in H; injection H as <- <-; repeat split.
Qed.

Lemma inv_open : forall w fuel raw log s s' e, inv log s -> openFrom w fuel raw s = Ok (s', e) -> inv (log ++ [(KOpen raw, e)]) s'.
Proof.
  intros w fuel raw log s s' e [I1 I2 I3 I4 I5] H. apply open_shape in H as (Na & Fo & Cu). split.
  - rewrite Na, unopen_snoc. split; [discriminate|intros [_ X]; discriminate X].
  - intros n k. rewrite Na. cbn. split; [discriminate|]. intros (file & R). apply registered_snoc in R as [(b & X & _)|[X _]]; discriminate.
  - rewrite Fo, I3, count_snoc. cbn. lia.
  - intros n k file R. apply registered_snoc in R as [(b & X & _)|[X _]]; discriminate.
  - destruct I5 as [(n & st & sz & Se & C)|(F & C)].
    + left. exists n, st, sz. split; [apply selected_snoc; auto|congruence].
    + right. split; [apply unset_snoc; auto|congruence].
Qed.

Lemma nth_snoc : forall (A : Type) (l : list A) x, nth_error (l ++ [x]) (List.length l) = Some x.
Proof. induction l; cbn; auto. Qed.

Lemma inv_add : forall name file b log s s' e, inv log s -> addFont name file b s = Ok (s', e) -> inv (log ++ [(KAddFont name file b, e)]) s'.
Proof.
  intros name file b log s s' e I H. unfold addFont in H.
  assert (Same : forall e0, s' = s -> e = Some e0 -> inv (log ++ [(KAddFont name file b, e)]) s').
  { intros e0 -> ->. apply (inv_same log s s); auto using same_refl. intros; congruence. }
  destruct (lookup name (s_names s)) as [id|] eqn:L; [unfold fails in H; injection H as E1 E2; exact (Same _ (eq_sym E1) (eq_sym E2))|].
  destruct file as [d|]; [|unfold fails in H; injection H as E1 E2; exact (Same _ (eq_sym E1) (eq_sym E2))].
  destruct (parseTtf d) as [t|e0| |] eqn:P; try discriminate; [|unfold fails in H; injection H as E1 E2; exact (Same _ (eq_sym E1) (eq_sym E2))].
  destruct (s_names s) as [names|] eqn:Na; [|discriminate]. unfold ok in H.
  set (f0 := mkFont name t b [] None None 0 0 ([], [], [], [], [])) in H.
  assert (e = None) by congruence. subst e.
  assert (Hs : s' = with_names (with_fonts s (s_fonts s ++ [f0])) (Some (names ++ [(name, List.length (s_fonts s))]))) by congruence.
  clear H Same. destruct I as [I1 I2 I3 I4 I5].
  assert (Fs : s_fonts s' = s_fonts s ++ [f0]) by (subst s'; reflexivity).
  assert (Ns : s_names s' = Some (names ++ [(name, List.length (s_fonts s))])) by (subst s'; reflexivity).
  assert (Cs : curr s' = curr s) by (subst s'; reflexivity). clear Hs.
  assert (Un : forall k f, ~ registered log name k f).
  { intros k f R. assert (X : lookup name (s_names s) = Some k) by (apply I2; eauto). rewrite Na in X. congruence. }
  split.
  - rewrite Ns, unopen_snoc, <- I1, Na. split; [discriminate|intros [X _]; discriminate X].
  - intros n k. rewrite Ns. cbn [lookup] in *. rewrite assoc_snoc. specialize (I2 n k). rewrite Na in I2. cbn [lookup] in I2.
    destruct (beqb_spec name n) as [<-|Ne].
    + rewrite L. split.
      * intros X. exists (Some d). apply registered_snoc. left. exists b. split; [reflexivity|]. congruence.
      * intros (fl & R). apply registered_snoc in R as [(y & _ & ->)|[_ R]]; [congruence|]. exfalso. eapply Un; eauto.
    + split.
      * intros X. assert (Y : assoc n names = Some k) by (destruct (assoc n names); [exact X|discriminate]).
        apply I2 in Y as (fl & R). exists fl. apply registered_snoc. auto.
      * intros (fl & R). apply registered_snoc in R as [(y & X & _)|[_ R]]; [congruence|].
        assert (Y : assoc n names = Some k) by (apply I2; eauto). rewrite Y. reflexivity.
  - rewrite Fs, app_length, I3, count_snoc. reflexivity.
  - intros n k fl R. rewrite Fs. apply registered_snoc in R as [(y & X & ->)|[_ R]].
    + assert (n = name /\ fl = Some d) as [-> ->] by (split; congruence).
      exists f0, d. rewrite <- I3, nth_snoc. auto.
    + destruct (I4 _ _ _ R) as (f & d' & Nf & Q). exists f, d'. split; [|exact Q].
      rewrite nth_error_app1; [exact Nf|]. apply nth_error_Some. congruence.
  - destruct I5 as [(n & st & sz & Se & C)|(F & C)].
    + left. exists n, st, sz. split; [apply selected_snoc; auto|congruence].
    + right. split; [apply unset_snoc; auto|congruence].
Qed.

Lemma inv_set : forall name st sz log s s' e, inv log s -> setFont name st sz s = Ok (s', e) -> inv (log ++ [(KSetFont name st sz, e)]) s'.
Proof.
  intros name st sz log s s' e I H. unfold setFont in H. destruct (lookup name (s_names s)) as [id|] eqn:L.
  - unfold ok in H. assert (e = None) by congruence. assert (s' = with_curr s name (getConvertedStyle st) sz) by congruence. subst e s'. clear H.
    destruct I as [I1 I2 I3 I4 I5]. split.
    + cbn [s_names with_curr]. rewrite I1, unopen_snoc. cbn [opens fst]. tauto.
    + intros n k. cbn [s_names with_curr]. rewrite I2. split; intros (f & R); exists f; [apply registered_snoc; auto|].
      apply registered_snoc in R as [(y & X & _)|[_ R]]; [discriminate|exact R].
    + cbn [s_fonts with_curr]. rewrite I3, count_snoc. cbn. lia.
    + intros n k f R. cbn [s_fonts with_curr]. apply registered_snoc in R as [(y & X & _)|[_ R]]; [discriminate|eauto].
    + left. exists name, st, sz. split; [|reflexivity]. exists log, []. auto.
  - unfold fails in H. assert (s' = s) by congruence. assert (e = Some EFontNameNotFound) by congruence. subst.
    apply (inv_same log s s); auto using same_refl. intros; discriminate.
Qed.

Lemma inv_step : forall w fuel c log s s' e, inv log s -> call_of w fuel c s = Ok (s', e) -> inv (log ++ [(c, e)]) s'.
Proof.
  intros w fuel c log s s' e I H. destruct (about_fonts c) eqn:A.
  - destruct c; try discriminate; cbn [call_of] in H; [eapply inv_open|eapply inv_add|eapply inv_set]; eauto.
  - apply (inv_same log s s'); auto; try (eapply call_same; eauto); destruct c; try discriminate; auto; intros; discriminate.
Qed.

Theorem history_inv : forall w fuel cs s log, history w fuel cs new_pdft = Ok (s, log) -> inv log s.
Proof.
  intros w fuel cs. induction cs as [|c cs IH] using rev_ind; intros s log H.
  - cbn in H. injection H as <- <-. split.
    + split; reflexivity.
    + intros n k. cbn. split; [discriminate|]. intros (f & b & y & a & E & _). destruct b; discriminate.
    + reflexivity.
    + intros n k f (b & y & a & E & _). destruct b; discriminate.
    + right. auto.
  - apply history_snoc in H as (s1 & l1 & e & H1 & C & ->). eapply inv_step; eauto.
Qed.
