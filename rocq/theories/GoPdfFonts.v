(** The settings and the fonts of a document follow the calls (C69). *)
From Coq Require Import String List ZArith Lia Bool.
From Coq.Floats Require Import SpecFloat.
From Verif Require Import Base BaseProofs Output Png Crypto Float64 Ttf Subset CharMap Text ApiIds GoPdf GoPdfSpec GoPdfFile GoPdfPages GoPdfRun GoPdfDoc GoPdfTree GoPdfState GoPdfKeep GoPdfView GoPdfSetSpec.
Open Scope Z_scope.
Open Scope list_scope.

(** ** The first font *)

(** The numbers of the font objects, in order *)
Definition knum (k : gkind) : list nat := match k with KFont n => [n] | _ => [] end.
Definition knums (l : list gkind) : list nat := flat_map knum l.
Lemma find_font_nums : forall os fs p, find_font os fs p = find (fun n => match nth_error fs n with Some f => p f | None => false end) (knums (map (fun o => view (o_kind o)) os)).
Proof.
  intros os fs p. induction os as [|o os IH]; [reflexivity|]. cbn [find_font map]. unfold knums in *. cbn [flat_map]. destruct (o_kind o); cbn [view knum app]; try exact IH.
  cbn [find]. destruct (nth_error fs font) as [f|]; [|exact IH]. destruct (p f); [reflexivity|exact IH].
Qed.
Lemma find_seq : forall A (p : A -> bool) (fs : list A) k pre, k = List.length pre ->
  match find (fun n => match nth_error (pre ++ fs) n with Some f => p f | None => false end) (seq k (List.length fs)) with
  | Some n => exists f a b, nth_error (pre ++ fs) n = Some f /\ p f = true /\ fs = a ++ f :: b /\ n = (k + List.length a)%nat /\ forallb (fun x => negb (p x)) a = true
  | None => forallb (fun x => negb (p x)) fs = true
  end.
Proof.
  intros A p. induction fs as [|f fs IH]; intros k pre E; [reflexivity|]. cbn [List.length seq find].
  assert (N : nth_error (pre ++ f :: fs) k = Some f) by (rewrite nth_error_app2, E, Nat.sub_diag by lia; reflexivity). rewrite N. destruct (p f) eqn:Ep.
  - exists f, [], fs. split; [exact N|]. split; [exact Ep|]. split; [reflexivity|]. split; [cbn; lia|reflexivity].
  - specialize (IH (S k) (pre ++ [f])). rewrite app_length in IH. cbn [List.length] in IH. specialize (IH ltac:(lia)). rewrite <- app_assoc in IH. cbn [app] in IH.
    destruct (find _ _) as [n|].
    + destruct IH as (f' & a & b & N' & P' & E' & L & Q). exists f', (f :: a), b. split; [exact N'|]. split; [exact P'|]. split; [rewrite E'; reflexivity|]. cbn [List.length forallb]. rewrite Ep, Q. split; [lia|reflexivity].
    + cbn [forallb]. rewrite Ep, IH. reflexivity.
Qed.
Lemma find_font_first : forall g p n, knums (V g) = seq 0 (List.length (g_fonts g)) -> find_font (g_objs g) (g_fonts g) p = Some n ->
  exists f a b, nth_error (g_fonts g) n = Some f /\ p f = true /\ g_fonts g = a ++ f :: b /\ n = List.length a /\ forallb (fun x => negb (p x)) a = true.
Proof.
  intros g p n K H. rewrite find_font_nums in H. change (map _ (g_objs g)) with (V g) in H. rewrite K in H. pose proof (find_seq _ p (g_fonts g) 0 [] eq_refl) as X. cbn [app] in X. rewrite H in X. exact X.
Qed.

(** ** What a call leaves of the fonts *)

Lemma knums_app : forall a b, knums (a ++ b) = knums a ++ knums b. Proof. intros. apply flat_map_app. Qed.
Lemma knums_set : forall l i k k0, nth_error l i = Some k0 -> knum k = knum k0 -> knums (set_nth i (fun _ => k) l) = knums l.
Proof.
  induction l as [|x l IH]; intros [|i] k k0 H E; try discriminate; cbn [nth_error set_nth] in *; unfold knums in *; cbn [flat_map].
  - injection H as ->. rewrite E. reflexivity.
  - rewrite (IH i k k0 H E). reflexivity.
Qed.
Lemma others_nums : forall l, others l -> knums l = [].
Proof. intros l H. induction H as [|k l Hk H IH]; [reflexivity|]. unfold knums in *. cbn [flat_map]. rewrite IH. destruct k; try contradiction; reflexivity. Qed.
Lemma blank_nums : forall l, blank_content l -> knums l = []. Proof. intros l [->| ->]; reflexivity. Qed.

Definition nfont (c : gcall) (e : option err) : nat := match c, e with AddFont _ _ _ _ _, None => 1%nat | _, _ => O end.
Lemma nums_next : forall w g c e g', view_next w g c e g' -> knums (V g') = knums (V g) ++ repeat (List.length (g_fonts g)) (nfont c e).
Proof.
  intros w g c e g' H.
  assert (P : plainly g g' -> knums (V g') = knums (V g) ++ []). { intros (l & E & O). rewrite E, knums_app, (others_nums _ O). reflexivity. }
  unfold view_next in H. destruct c; cbn [nfont repeat]; try (apply P; exact H); destruct e; cbn [repeat]; try (apply P; exact H).
  - destruct H as (d & t & kp & rs & xs & _ & _ & _ & N & X). cbv zeta in X. destruct X as (_ & E & _). rewrite E, knums_app. rewrite (knums_set _ _ _ _ N) by reflexivity. reflexivity.
  - destruct (find _ _) as [y0|]; [apply P, drew_plainly; exact H|]. destruct H as (info & rs & xs & l & info' & rgb & tail & _ & N & X). cbv zeta in X. destruct X as (Bl & E & Ft & _).
    rewrite E, knums_app, (knums_set _ _ _ _ N) by reflexivity. f_equal. change (knums (?a :: l ++ tail)) with (knum a ++ knums (l ++ tail)). cbn [knum app]. rewrite knums_app, (blank_nums _ Bl). clear - Ft.
    induction Ft as [|k l Hk H IH]; [reflexivity|]. cbn [app] in *. unfold knums in *. cbn [flat_map]. rewrite IH. destruct k; try contradiction; reflexivity.
Qed.

Lemma fonts_len : forall g c e fs, fonts_next g c e fs -> List.length fs = (List.length (g_fonts g) + nfont c e)%nat.
Proof.
  intros g c e fs H. destruct c; cbn [fonts_next nfont] in *; try (subst fs; lia); try (destruct H as (n & f & _ & _ & ->); rewrite set_nth_len; lia).
  - destruct e; [subst fs; lia|]. destruct H as (d & t & k & n & cid & uni & _ & _ & _ & ->). rewrite app_length. reflexivity.
  - destruct e; [subst fs; lia|]. destruct H as (n & ->). rewrite set_nth_len. lia.
Qed.
Theorem nums_run : forall rnd cfg w g0 t g, g_start rnd cfg gp0 = Ok g0 -> runs w g0 t g -> knums (V g) = seq 0 (List.length (g_fonts g)).
Proof.
  intros rnd cfg w g0 t g S R. pose proof (inv_start _ _ _ S) as V0. induction R as [|t g c g' e R IH Sc].
  - destruct (start_small _ _ _ S) as (-> & _). unfold g_start in S. cbv zeta in S. cbn [addObj] in S. match type of S with bind ?e _ = _ => destruct e as [p| | |]; cbn [bind] in S; try discriminate end. injection S as <-. reflexivity.
  - pose proof (inv_run _ _ _ _ _ V0 R) as Vi. destruct (iv_cfg _ _ _ Vi) as (_ & _ & EP & _). pose proof (step_view _ _ _ _ _ EP (inv_three _ _ _ Vi) Sc) as X.
    destruct (step_small _ _ _ _ _ (inv_proc _ _ _ Vi) Sc) as (_ & Y & _). rewrite (nums_next _ _ _ _ _ X), (fonts_len _ _ _ _ Y), IH, seq_app. f_equal.
    cbn [Nat.add]. destruct (nfont c e) as [|[|k]] eqn:En; [reflexivity|reflexivity|]. exfalso. destruct c; try discriminate. destruct e; discriminate.
Qed.

(** ** The fonts are those of the calls *)

Lemma forall2_app1 : forall A C (P : A -> C -> Prop) l l' x y, Forall2 P l l' -> P x y -> Forall2 P (l ++ [x]) (l' ++ [y]).
Proof. intros. apply Forall2_app; [assumption|]. constructor; [assumption|constructor]. Qed.
Lemma forall2_set : forall A C (P : A -> C -> Prop) h n l l', Forall2 P l l' -> (forall x y, P x y -> P x (h y)) -> Forall2 P l (set_nth n h l').
Proof. intros A C P h n l l' H. revert n. induction H as [|x y l l' Hx H IH]; intros [|n] X; cbn [set_nth]; constructor; auto. Qed.
Lemma added_snoc : forall t x, added (t ++ [x]) = font_step (added t) x. Proof. intros. unfold added. rewrite fold_left_app. reflexivity. Qed.
Lemma forall2_first : forall A C (P : A -> C -> Prop) (p : A -> bool) (q : C -> bool) h k a f b l, Forall2 P l (a ++ f :: b) -> (forall x y, P x y -> p x = q y) -> q f = true -> forallb (fun x => negb (q x)) a = true ->
  (forall x y, P x y -> P (h x) (k y)) -> Forall2 P (on_first p h l) (set_nth (List.length a) k (a ++ f :: b)).
Proof.
  intros A C P p q h k a f b l H Hpq Hf Ha Hh. rewrite set_nth_mid. revert l H. induction a as [|y a IH]; intros l H; inversion H as [|u v l1 l2 Huv Hl E1 E2]; subst; cbn [on_first app].
  - rewrite (Hpq _ _ Huv), Hf. constructor; auto.
  - cbn [forallb] in Ha. apply andb_prop in Ha. destruct Ha as (Ha1 & Ha2). rewrite (Hpq _ _ Huv). destruct (q y); [discriminate|]. constructor; [assumption|]. apply IH; assumption.
Qed.
Theorem added_run : forall rnd cfg w g0 t g, g_start rnd cfg gp0 = Ok g0 -> runs w g0 t g -> Forall2 same_font (added t) (g_fonts g).
Proof.
  intros rnd cfg w g0 t g S R. pose proof (inv_start _ _ _ S) as V0. induction R as [|t g c g' e R IH Sc].
  - destruct (start_small _ _ _ S) as (-> & _). constructor.
  - pose proof (inv_run _ _ _ _ _ V0 R) as Vi. pose proof (nums_run _ _ _ _ _ _ S R) as K. destruct (step_small _ _ _ _ _ (inv_proc _ _ _ Vi) Sc) as (_ & Y & _). rewrite added_snoc. unfold font_step. cbn [fst snd].
    destruct c; cbn [fonts_next] in Y; try (rewrite Y; exact IH);
      try (destruct Y as (n & f & _ & _ & ->); apply forall2_set; [exact IH|]; intros a x X; exact X).
    + destruct e; [rewrite Y; destruct file; exact IH|]. destruct Y as (d & tt & k & n & cid & uni & -> & Ep & Ek & ->). apply forall2_app1; [exact IH|].
      unfold same_font. cbn [gf_family gf_style gf_ttf gf_kerning gf_pairs gf_over af_family af_style af_file af_kerning af_over]. repeat (split; [first [reflexivity|assumption]|]). reflexivity.
    + destruct e; [rewrite Y; exact IH|]. cbn [gstep] in Sc. unfold g_kern_override in Sc. destruct (find_font _ _ _) as [n|] eqn:Ef; [|discriminate]. injection Sc as <-. cbn [g_fonts g_set_fonts].
      destruct (find_font_first _ _ _ K Ef) as (f & a & b & _ & Pf & E & -> & Q). rewrite E in IH |- *. apply forall2_first with (q := fun f => beqb (gf_family f) family); [exact IH| |exact Pf|exact Q|].
      * intros x y (X & _). rewrite X. reflexivity.
      * intros x y (X1 & X2 & X3 & X4 & X5 & _). unfold same_font. cbn [gf_family gf_style gf_ttf gf_kerning gf_pairs gf_over gf_set_over af_family af_style af_file af_kerning af_over]. auto 8.
Qed.

(** ** The settings *)

Lemma settings_snoc : forall cfg t x, settings_of cfg (t ++ [x]) = set_step cfg (settings_of cfg t) x. Proof. intros. unfold settings_of. rewrite fold_left_app. reflexivity. Qed.
Lemma draw_margins : forall g f g', draw g f = Ok g' -> g_left g' = g_left g /\ g_top g' = g_top g.
Proof.
  intros g f g' H. unfold draw in H. destruct (getContent g) as [[[[g1 i] s] cs]| | |] eqn:E; cbn [bind] in H; try discriminate. injection H as <-.
  unfold getContent in E. destruct (g_content g <=? -1); [cbn [addObj] in E; injection E as <- _ _ _; auto|].
  destruct (kind_at g (g_content g)) as [k| | |]; cbn [bind] in E; try discriminate. destruct k; try discriminate. injection E as <- _ _ _. auto.
Qed.
Lemma gok_margins : forall g f g' e, gok (draw g f) = Ok (g', e) -> g_left g' = g_left g /\ g_top g' = g_top g.
Proof. intros g f g' e H. unfold gok in H. destruct (draw g f) as [g1| | |] eqn:E; cbn [bind] in H; try discriminate. injection H as <- <-. eapply draw_margins; eauto. Qed.
Lemma chars_margins : forall g t g' n e, add_text_chars g t = Ok (g', n, e) -> g_left g' = g_left g /\ g_top g' = g_top g.
Proof.
  intros g t g' n e H. unfold add_text_chars in H. destruct (u_font (g_cur g)) as [k|]; [|discriminate]. destruct (nth_error (g_fonts g) k) as [f|]; [|discriminate].
  destruct (add_chars (gf_ttf f) t (gf_map f)) as (m, r). destruct r; try discriminate; injection H as <- _ _; auto.
Qed.
Lemma text_margins : forall cell rect al bo fl t g g' e, text_call cell rect al bo fl t g = Ok (g', e) -> g_left g' = g_left g /\ g_top g' = g_top g.
Proof.
  intros cell rect al bo fl t g g' e H. unfold text_call in H. destruct (add_text_chars g t) as [[[g1 n] e1]| | |] eqn:E; cbn [bind] in H; try discriminate.
  destruct (chars_margins _ _ _ _ _ E) as (<- & <-). clear E. destruct e1 as [e1|]; [injection H as <- _; auto|].
  unfold put_text in H. destruct (getContent g1) as [[[[g2 i] s] cs]| | |] eqn:E; cbn [bind] in H; try discriminate.
  assert (X : g_left g2 = g_left g1 /\ g_top g2 = g_top g1).
  { unfold getContent in E. destruct (g_content g1 <=? -1); [cbn [addObj] in E; injection E as <- _ _ _; auto|].
    destruct (kind_at g1 (g_content g1)) as [k| | |]; cbn [bind] in E; try discriminate. destruct k; try discriminate. injection E as <- _ _ _. auto. }
  destruct (append_text _ _ _ _) as [[[cs' x] y] r]. destruct r; try discriminate; injection H as <- _; exact X.
Qed.
Lemma step_margins : forall w g c g' e, gstep w g c = Ok (g', e) ->
  g_left g' = match c with LeftMargin m => m | _ => g_left g end /\ g_top g' = match c with TopMargin m => m | _ => g_top g end.
Proof.
  intros w g c g' e H. destruct c; cbn [gstep] in H;
    try (unfold gok in H; cbn [bind] in H; injection H as <- _; auto; fail);
    try (eapply gok_margins; exact H); try (eapply text_margins; exact H).
  - unfold gok in H. cbn [bind] in H. injection H as <- _. unfold g_add_page. cbn [addObj]. cbv zeta. cbn [g_first g_set_objs g_set_cur]. destruct (g_first g =? -1); auto.
  - unfold g_set_font in H. destruct (find_font _ _ _) as [n|]; [|injection H as <- _; auto]. destruct (nth_error _ n); [|discriminate]. injection H as <- _. auto.
  - unfold g_set_font in H. destruct (find_font _ _ _) as [n|]; [|injection H as <- _; auto]. destruct (nth_error _ n); [|discriminate]. injection H as <- _. auto.
  - unfold g_add_font in H. destruct (match file with Some _ => _ | None => _ end) as [(t, kp)| | |]; try discriminate; [|injection H as <- _; auto].
    cbn [addObj] in H. cbv zeta in H. match type of H with (if g_procset ?g1 =? -1 then _ else _) = _ => set (g5 := g1) in H end.
    assert (X : g_left g5 = g_left g /\ g_top g5 = g_top g) by auto. clearbody g5. destruct (g_procset g5 =? -1); [match type of H with Ok (?a, _) = _ => assert (E2 : g' = a) by congruence end; subst g'; exact X|].
    destruct (kind_at g5 (g_procset g5)) as [ps| | |]; cbn [bind] in H; try discriminate. destruct ps; try discriminate.
    destruct (existsb _ _); match type of H with Ok (?a, _) = _ => assert (E2 : g' = a) by congruence end; subst g'; exact X.
  - unfold g_kern_override in H. destruct (find_font _ _ _); injection H as <- _; auto.
  - unfold g_image in H. destruct (find _ _) as [((a, k), q)|].
    + destruct (k =? -1); [discriminate|]. destruct (match rect with Some _ => _ | None => _ end); cbn [bind] in H; try discriminate. eapply gok_margins; eauto.
    + destruct (match rect with Some _ => _ | None => _ end) as [q| | |]; try discriminate; [|injection H as <- <-; auto].
      destruct (parseImg _ _ _ _ _) as [info| | |]; try discriminate; [|injection H as <- <-; auto]. unfold img_put in H. destruct (addObj g (KImage info 0 (g_prot g))) as (g1, i) eqn:E1. cbn [addObj] in E1.
      assert (X : g_left g1 = g_left g /\ g_top g1 = g_top g) by (injection E1 as <- _; auto). clear E1.
      match type of H with bind ?m _ = _ => destruct m as [g2| | |] eqn:E2; cbn [bind] in H; try discriminate end.
      assert (Y : g_left g2 = g_left g /\ g_top g2 = g_top g).
      { destruct (g_procset g1 =? -1); [injection E2 as <-; exact X|]. destruct (kind_at g1 (g_procset g1)) as [ps| | |]; cbn [bind] in E2; try discriminate. destruct ps; try discriminate.
        destruct (draw g1 _) as [g3| | |] eqn:Ed; cbn [bind] in E2; try discriminate. injection E2 as <-. apply draw_margins in Ed. destruct Ed, X. cbn [g_left g_top g_set_cur put_kind g_set_objs]. split; congruence. }
      clear E2 X. destruct (createSMask info) as [m|]; cbn [addObj] in H; (destruct (beqb (colspace info) (B"Indexed"));
        [match type of H with bind ?m _ = _ => destruct m as [k| | |]; cbn [bind] in H; try discriminate end; destruct k; try discriminate|]; injection H as <- _; exact Y).
  - unfold g_line_width in H. apply gok_margins in H. exact H.
  - unfold g_gray in H. apply gok_margins in H. exact H.
  - unfold gok in H. cbn [bind] in H. injection H as <- _. unfold g_compress_level. destruct (l <? -2); [auto|]. destruct (9 <? l); auto.
  - unfold g_measure in H. destruct (add_text_chars g text) as [[[g1 n] e1]| | |] eqn:E; cbn [bind] in H; try discriminate. destruct e1; [|discriminate]. injection H as <- _. eapply chars_margins; eauto.
Qed.

Theorem set_run : forall rnd cfg w g0 t g, g_start rnd cfg gp0 = Ok g0 -> runs w g0 t g -> set_now (settings_of cfg t) g.
Proof.
  intros rnd cfg w g0 t g S R. pose proof (inv_start _ _ _ S) as V0. induction R as [|t g c g' e R IH Sc].
  - unfold g_start in S. cbv zeta in S. cbn [addObj] in S. match type of S with bind ?e _ = _ => destruct e as [p| | |]; cbn [bind] in S; try discriminate end. injection S as <-. repeat split.
  - pose proof (inv_run _ _ _ _ _ V0 R) as Vi. destruct (iv_cfg _ _ _ Vi) as (Ec & _). destruct (step_small _ _ _ _ _ (inv_proc _ _ _ Vi) Sc) as (C & _). destruct (step_margins _ _ _ _ _ Sc) as (M1 & M2).
    rewrite settings_snoc. destruct (settings_of cfg t) as [sc sg sw sl st sp sf]. unfold set_now in *. cbn [s_color s_gray s_width s_left s_top s_page s_font] in IH. destruct IH as (I1 & I2 & I3 & I4 & I5 & I6).
    pose proof (page_next _ _ _ _ _ C) as P. rewrite Ec in P. unfold set_step. cbn [fst snd].
    destruct c; cbn [cur_next] in C; cbv zeta in C; try (rewrite C in *; cbn [s_color s_gray s_width s_left s_top s_page]; cbn; repeat split; congruence);
      try (destruct C as (x1 & y1 & C); rewrite C in *; cbn; repeat split; congruence);
      try (destruct C as (k & C); rewrite C in *; cbn; repeat split; congruence).
    + rewrite C. cbn [s_color s_gray s_width s_left s_top s_page]. rewrite C in P. cbn in P. cbn. repeat split; congruence.
    + unfold selects in C. destruct e; [destruct C as (C & _)|destruct C as (n & f & _ & _ & C)]; rewrite C in *; cbn; repeat split; congruence.
    + unfold selects in C. destruct e; [destruct C as (C & _)|destruct C as (n & f & _ & _ & C)]; rewrite C in *; cbn; repeat split; congruence.
    + destruct e; [rewrite C in *; cbn; repeat split; congruence|]. destruct (find _ _); [rewrite C in *; cbn; repeat split; congruence|]. destruct C as (q & C & _). rewrite C in *. cbn. repeat split; congruence.
Qed.

Lemma font_for_mid : forall fam st l fs a f b, Forall2 same_font l fs -> fs = a ++ f :: b -> has_font fam st f = true -> forallb (fun x => negb (has_font fam st x)) a = true ->
  exists af, font_for l fam st = Some af /\ nth_error l (List.length a) = Some af /\ (forall m x, (m < List.length a)%nat -> nth_error l m = Some x -> of_style fam st x = false) /\ same_font af f.
Proof.
  intros fam st l fs a f b H. revert a. induction H as [|x y l fs Hx H IH]; intros a E Hf Ha; [destruct a; discriminate|].
  assert (Q : of_style fam st x = has_font fam st y). { destruct Hx as (X1 & X2 & _). unfold of_style, has_font, no_underline. rewrite X1, X2. reflexivity. }
  destruct a as [|z a].
  - injection E as -> ->. exists x. unfold font_for. cbn [find]. rewrite Q, Hf. split; [reflexivity|]. split; [reflexivity|]. split; [cbn [List.length]; intros m ? Hm; lia|exact Hx].
  - injection E as -> E. cbn [forallb] in Ha. apply andb_prop in Ha. destruct Ha as (Ha1 & Ha2). destruct (IH a E Hf Ha2) as (af & A1 & A2 & A4 & A3). exists af. unfold font_for. cbn [find]. rewrite Q.
    destruct (has_font fam st z) eqn:Hz; [discriminate|]. split; [exact A1|]. split; [exact A2|]. split; [|exact A3].
    intros [|m] u Hm Hu; cbn [nth_error List.length] in *; [congruence|]. apply (A4 m u); [lia|exact Hu].
Qed.
Lemma font_kept : forall w cfg pl g c g' e, inv cfg g pl -> gstep w g c = Ok (g', e) -> forall n f, nth_error (g_fonts g) n = Some f -> exists f', nth_error (g_fonts g') n = Some f' /\ gf_family f' = gf_family f /\ gf_style f' = gf_style f.
Proof.
  intros w cfg pl g c g' e Vi Sc n f N. destruct (step_small _ _ _ _ _ (inv_proc _ _ _ Vi) Sc) as (_ & Y & _).
  assert (X : forall m h, (forall x, gf_family (h x) = gf_family x /\ gf_style (h x) = gf_style x) -> exists f', nth_error (set_nth m h (g_fonts g)) n = Some f' /\ gf_family f' = gf_family f /\ gf_style f' = gf_style f).
  { intros m h Hh. rewrite nth_set_at, N. cbn [option_map]. destruct (Nat.eqb m n); [|exists f; auto]. exists (h f). destruct (Hh f). auto. }
  destruct c; cbn [fonts_next] in Y; try (rewrite Y; exists f; auto; fail); try (destruct Y as (k & f0 & _ & _ & ->); apply X; intros x0; split; reflexivity).
  - destruct e; [rewrite Y; exists f; auto|]. destruct Y as (d & tt & k & m & cid & uni & _ & _ & _ & ->). exists f. rewrite nth_error_app1; [auto|]. apply nth_error_Some. congruence.
  - destruct e; [rewrite Y; exists f; auto|]. destruct Y as (k0 & ->). apply X. intros x0; split; reflexivity.
Qed.

(** The selected font: the first of its family and style, in the state and among the calls. *)
Theorem font_run : forall rnd cfg w g0 t g, g_start rnd cfg gp0 = Ok g0 -> runs w g0 t g -> font_now (settings_of cfg t) (added t) g.
Proof.
  intros rnd cfg w g0 t g S R.
  assert (Z : match s_font (settings_of cfg t) with
              | None => u_font (g_cur g) = None
              | Some (family, style, size) => u_size (g_cur g) = size /\ u_style (g_cur g) = style /\
                  exists f a b, u_font (g_cur g) = Some (List.length a) /\ g_fonts g = a ++ f :: b /\ has_font family style f = true /\ forallb (fun x => negb (has_font family style x)) a = true
              end).
  { pose proof (inv_start _ _ _ S) as V0. induction R as [|t g c g' e R IH Sc].
    - unfold g_start in S. cbv zeta in S. cbn [addObj] in S. match type of S with bind ?e _ = _ => destruct e as [p| | |]; cbn [bind] in S; try discriminate end. injection S as <-. reflexivity.
    - pose proof (inv_run _ _ _ _ _ V0 R) as Vi. pose proof (nums_run _ _ _ _ _ _ S R) as Kn. pose proof (font_kept _ _ _ _ _ _ _ Vi Sc) as Kp. destruct (step_small _ _ _ _ _ (inv_proc _ _ _ Vi) Sc) as (C & Y & _).
      rewrite settings_snoc. destruct (settings_of cfg t) as [sc sg sw sl st sp sf]. cbn [s_font] in IH.
      assert (Sel : forall fam sty sz, selects g fam sty sz e (g_cur g') -> g_fonts g' = g_fonts g -> e = None -> u_size (g_cur g') = sz /\ u_style (g_cur g') = sty /\
        exists f a b, u_font (g_cur g') = Some (List.length a) /\ g_fonts g' = a ++ f :: b /\ has_font fam sty f = true /\ forallb (fun x => negb (has_font fam sty x)) a = true).
      { intros fam sty sz Se Ef ->. unfold selects in Se. destruct Se as (n & f & Fn & _ & ->). split; [reflexivity|]. split; [reflexivity|]. destruct (find_font_first _ _ _ Kn Fn) as (f0 & a & b & _ & P & E & -> & Q).
        exists f0, a, b. rewrite Ef. auto. }
      assert (Keep : u_font (g_cur g') = u_font (g_cur g) -> u_size (g_cur g') = u_size (g_cur g) -> u_style (g_cur g') = u_style (g_cur g) ->
        match sf with
        | None => u_font (g_cur g') = None
        | Some (family, style, size) => u_size (g_cur g') = size /\ u_style (g_cur g') = style /\
            exists f a b, u_font (g_cur g') = Some (List.length a) /\ g_fonts g' = a ++ f :: b /\ has_font family style f = true /\ forallb (fun x => negb (has_font family style x)) a = true
        end).
      { intros U1 U2 U3. destruct sf as [((family, style), size)|]; [|congruence]. destruct IH as (I1 & I2 & f & a & b & I3 & I4 & I5 & I6). split; [congruence|]. split; [congruence|].
        assert (Na : nth_error (g_fonts g) (List.length a) = Some f) by (rewrite I4, nth_error_app2, Nat.sub_diag by lia; reflexivity). destruct (Kp _ _ Na) as (f' & Nf & Hf1 & Hf2).
        destruct (nth_error_split _ _ Nf) as (a' & b' & E & L). exists f', a', b'. split; [congruence|]. split; [exact E|]. unfold has_font in *. split; [rewrite Hf1, Hf2; exact I5|].
        apply forallb_forall. intros x Hx. apply In_nth_error in Hx. destruct Hx as (k & Hk). assert (Lk : (k < List.length a')%nat) by (apply nth_error_Some; congruence).
        destruct (nth_error a k) as [y|] eqn:Ek; [|apply nth_error_None in Ek; lia].
        assert (Ny : nth_error (g_fonts g) k = Some y) by (rewrite I4, nth_error_app1 by lia; exact Ek). destruct (Kp _ _ Ny) as (y' & N' & Y1 & Y2). rewrite E, nth_error_app1, Hk in N' by lia. injection N' as <-.
        rewrite Y1, Y2. rewrite forallb_forall in I6. apply (I6 y). eapply nth_error_In; eauto. }
      unfold set_step. cbn [fst snd].
      destruct c; cbn [cur_next fonts_next] in C, Y; cbv zeta in C; cbn [s_font];
        try (apply Keep; rewrite C; reflexivity); try (destruct C as (x1 & y1 & C); apply Keep; rewrite C; reflexivity); try (destruct C as (k & C); apply Keep; rewrite C; reflexivity).
      + destruct e; cbn [s_font]; [apply Keep; unfold selects in C; destruct C as (-> & _); reflexivity|]. apply Sel; auto.
      + destruct e; cbn [s_font]; [apply Keep; unfold selects in C; destruct C as (-> & _); reflexivity|]. apply Sel; auto.
      + destruct e; [apply Keep; rewrite C; reflexivity|]. destruct (find _ _); [apply Keep; rewrite C; reflexivity|]. destruct C as (q & C & _). apply Keep; rewrite C; reflexivity. }
  unfold font_now. destruct (s_font (settings_of cfg t)) as [((family, style), size)|]; [|exact Z]. destruct Z as (Z1 & Z2 & f & a & b & Z3 & Z4 & Z5 & Z6). split; [exact Z1|]. split; [exact Z2|].
  destruct (font_for_mid _ _ _ _ _ _ _ (added_run _ _ _ _ _ _ S R) Z4 Z5 Z6) as (af & A1 & A2 & A4 & A3). exists (List.length a), f, af. split; [exact Z3|]. split; [rewrite Z4, nth_error_app2, Nat.sub_diag by lia; reflexivity|]. auto.
Qed.

(** ** C69 *)

Theorem settings_read : forall w rnd cfg t F, document w rnd cfg t F -> forall a q c e b, t = a ++ (q, c, e) :: b -> set_now (settings_of cfg a) q /\ font_now (settings_of cfg a) (added a) q.
Proof.
  intros w rnd cfg t F D a q c e b E. destruct D as (g0 & g & g' & S & R & _). destruct (runs_split _ _ _ _ R _ _ _ _ _ E) as (q' & Ra & _). split; [eapply set_run; eauto|eapply font_run; eauto].
Qed.
Theorem moves_read : forall w rnd cfg t F, document w rnd cfg t F -> forall a q c e q' c' e' b, t = a ++ (q, c, e) :: (q', c', e') :: b ->
  moved (settings_of cfg a) c (u_x (g_cur q)) (u_y (g_cur q)) (u_x (g_cur q')) (u_y (g_cur q')).
Proof.
  intros w rnd cfg t F D a q c e q' c' e' b E. destruct D as (g0 & g & g' & S & R & _). pose proof (inv_start _ _ _ S) as V0.
  destruct (runs_split _ _ _ _ R _ _ _ _ _ E) as (q1 & Ra & Sc & _). assert (E2 : t = (a ++ [(q, c, e)]) ++ (q', c', e') :: b) by (rewrite <- app_assoc; exact E).
  destruct (runs_split _ _ _ _ R _ _ _ _ _ E2) as (q2 & Rb & _). assert (q1 = q').
  { inversion Rb as [Z|t1 g1 c1 g1' e1 R1 S1 Z Z2]; [destruct a; discriminate|]. apply app_inj_tail in Z. destruct Z as (-> & Z). assert (g1 = q /\ c1 = c) as (-> & ->) by (split; congruence). rewrite S1 in Sc. congruence. }
  subst q1. pose proof (inv_run _ _ _ _ _ V0 Ra) as Vi. destruct (step_small _ _ _ _ _ (inv_proc _ _ _ Vi) Sc) as (C & _). destruct (set_run _ _ _ _ _ _ S Ra) as (_ & _ & _ & L & T & _).
  unfold moved. destruct c; cbn [cur_next] in C; cbv zeta in C; try exact Logic.I; try (rewrite C; cbn; auto; fail).
  - unfold selects in C. destruct e; [destruct C as (-> & _)|destruct C as (n & f & _ & _ & ->)]; auto.
  - unfold selects in C. destruct e; [destruct C as (-> & _)|destruct C as (n & f & _ & _ & ->)]; auto.
  - destruct C as (k & ->). auto.
  - destruct e; [rewrite C; auto|]. destruct (find _ _); [rewrite C; auto|]. destruct C as (k & -> & _). auto.
Qed.
