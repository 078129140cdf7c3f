(** Texts that are written (C92). *)
From Coq Require Import String List ZArith Lia Bool.
From Coq.Floats Require Import SpecFloat.
From Verif Require Import Base BaseProofs Utf8 Utf8Proofs Output Png Crypto Float64 Ttf TtfSpec TtfProofs TtfTables TtfTotal TtfCmap Subset CharMap Text TextCases ApiIds GoPdf GoPdfSpec GoPdfFile GoPdfPages GoPdfRun GoPdfDoc GoPdfTree GoPdfState GoPdfKeep GoPdfView GoPdfSetSpec GoPdfResSpec GoPdfFonts GoPdfChain GoPdfEmbed GoPdfCallSpec GoPdfCalls GoPdfTextSpec.
Open Scope Z_scope.
Open Scope list_scope.

(** ** What holds of all texts of the contents *)

Definition held (P : gtext -> Prop) (c : gcache) : Prop := match c with CText k => P k | _ => True end.
Definition holds (n : gtext -> Prop) (k : gkind) : Prop := match k with KContent _ cs => Forall (held n) cs | _ => True end.
Definition all_held (n : gtext -> Prop) (os : list gobj) : Prop := Forall (fun o => holds n (o_kind o)) os.

Lemma held_add : forall n g k, all_held n (g_objs g) -> holds n k -> all_held n (g_objs (fst (addObj g k))).
Proof. intros n g k A K. cbn [addObj fst g_objs g_set_objs]. apply Forall_app. split; [exact A|]. constructor; [exact K|constructor]. Qed.
Lemma held_put : forall n g i k, all_held n (g_objs g) -> holds n k -> all_held n (g_objs (put_kind g i k)).
Proof.
  intros n g i k A K. unfold put_kind. cbn [g_objs g_set_objs]. unfold all_held in *. revert A. generalize (Z.to_nat i). induction (g_objs g) as [|o os IH]; intros m A; [destruct m; constructor|].
  inversion A; subst. destruct m; cbn [set_nth]; constructor; auto.
Qed.
Lemma content_held : forall n g g1 i s cs, getContent g = Ok (g1, i, s, cs) -> all_held n (g_objs g) -> all_held n (g_objs g1) /\ Forall (held n) cs /\ g_fonts g1 = g_fonts g /\ g_cur g1 = g_cur g.
Proof.
  intros n g g1 i s cs H A. unfold getContent in H. destruct (g_content g <=? -1).
  - cbn [addObj] in H. injection H as <- <- <- <-. split; [|split; [constructor|auto]]. apply (held_add n g (KContent [] []) A). constructor.
  - destruct (kind_at g (g_content g)) as [k| | |] eqn:Ek; cbn [bind] in H; try discriminate. destruct k; try discriminate. injection H as <- <- <- <-.
    split; [exact A|]. split; [|auto]. apply kind_at_nth in Ek. destruct Ek as (o & En & Eo & _). unfold all_held in A. rewrite Forall_forall in A. specialize (A o (nth_error_In _ _ En)). rewrite Eo in A. exact A.
Qed.
Lemma draw_held : forall n g f g', draw g f = Ok g' -> (forall h, held n (f h)) -> all_held n (g_objs g) -> all_held n (g_objs g').
Proof.
  intros n g f g' H F A. unfold draw in H. destruct (getContent g) as [[[[g1 i] s] cs]| | |] eqn:E; cbn [bind] in H; try discriminate. injection H as <-.
  destruct (content_held _ _ _ _ _ _ E A) as (A1 & A2 & _). apply held_put; [exact A1|]. cbn [holds]. apply Forall_app. split; [exact A2|]. constructor; [apply F|constructor].
Qed.
Lemma gdraw_held : forall n g f g' e, gok (draw g f) = Ok (g', e) -> (forall h, held n (f h)) -> all_held n (g_objs g) -> all_held n (g_objs g').
Proof. intros n g f g' e H F A. unfold gok in H. destruct (draw g f) as [g1| | |] eqn:E; cbn [bind] in H; try discriminate. injection H as <- <-. eapply draw_held; eauto. Qed.
Lemma image_held : forall w b id d x y r g g' e n, g_image w b id d x y r g = Ok (g', e) -> all_held n (g_objs g) -> all_held n (g_objs g').
Proof.
  intros w b id d x y rect g g' e n H A. unfold g_image in H. destruct (find _ _) as [((a, k), q)|].
  - destruct (k =? -1); [discriminate|]. destruct (match rect with Some _ => _ | None => _ end); cbn [bind] in H; try discriminate. eapply gdraw_held; [exact H| |exact A]. intros h. exact Logic.I.
  - destruct (match rect with Some _ => _ | None => _ end) as [q| | |]; try discriminate; [|injection H as <- <-; exact A].
    destruct (parseImg _ _ _ _ _) as [info| | |]; try discriminate; [|injection H as <- <-; exact A]. unfold img_put in H. destruct (addObj g (KImage info 0 (g_prot g))) as (g1, i) eqn:E1.
    assert (X : all_held n (g_objs g1)). { replace g1 with (fst (addObj g (KImage info 0 (g_prot g)))) by (rewrite E1; reflexivity). apply held_add; [exact A|exact Logic.I]. }
    clear E1. match type of H with bind ?m _ = _ => destruct m as [g2| | |] eqn:E2; cbn [bind] in H; try discriminate end.
    assert (Y : all_held n (g_objs g2)).
    { destruct (g_procset g1 =? -1); [injection E2 as <-; exact X|]. destruct (kind_at g1 (g_procset g1)) as [ps| | |]; cbn [bind] in E2; try discriminate. destruct ps; try discriminate.
      destruct (draw g1 _) as [g3| | |] eqn:Ed; cbn [bind] in E2; try discriminate. injection E2 as <-. cbn [g_objs g_set_cur]. apply held_put; [|exact Logic.I]. eapply draw_held; [exact Ed| |exact X]. intros h. exact Logic.I. }
    clear E2 X.
    match type of H with (if _ then (let (_, _) := addObj ?m _ in _) else _) = _ => set (g3 := m) in H end.
    assert (W : all_held n (g_objs g3)).
    { unfold g3. destruct (createSMask info) as [sm|]; [|exact Y]. destruct (addObj g2 (KSMask sm (g_prot g2))) as (g4, j) eqn:E4. apply held_put; [|exact Logic.I].
      replace g4 with (fst (addObj g2 (KSMask sm (g_prot g2)))) by (rewrite E4; reflexivity). apply held_add; [exact Y|exact Logic.I]. }
    clearbody g3. destruct (beqb (colspace info) (B"Indexed")); [|injection H as <- _; exact W].
    destruct (addObj g3 (KRgb (pal info))) as (g4, j) eqn:E4.
    assert (Z : all_held n (g_objs g4)). { replace g4 with (fst (addObj g3 (KRgb (pal info)))) by (rewrite E4; reflexivity). apply held_add; [exact W|exact Logic.I]. }
    destruct (kind_at g4 i) as [k| | |]; cbn [bind] in H; try discriminate. destruct k; try discriminate. injection H as <- _. apply held_put; [exact Z|exact Logic.I].
Qed.
Lemma font_held : forall f k st d b g g' e n, g_add_font f k st d b g = Ok (g', e) -> all_held n (g_objs g) -> all_held n (g_objs g').
Proof.
  intros f kern st file b g g' e n H A. unfold g_add_font in H. destruct (match file with Some _ => _ | None => _ end) as [(t, kp)| | |]; try discriminate; [|injection H as <- _; exact A].
  cbn [addObj] in H. cbv zeta in H. match type of H with (if g_procset ?g1 =? -1 then _ else _) = _ => set (g5 := g1) in H end.
  assert (X : all_held n (g_objs g5)). { unfold g5. cbn [g_objs g_set_objs]. repeat (apply Forall_app; split; [|constructor; [exact Logic.I|constructor]]). exact A. }
  clearbody g5. destruct (g_procset g5 =? -1); [match type of H with Ok (?a, _) = _ => assert (E2 : g' = a) by congruence end; subst g'; exact X|].
  destruct (kind_at g5 (g_procset g5)) as [ps| | |]; cbn [bind] in H; try discriminate. destruct ps; try discriminate.
  destruct (existsb _ _); match type of H with Ok (?a, _) = _ => assert (E2 : g' = a) by congruence end; subst g'; [exact X|]. cbn [g_objs g_set_fonts g_set_cur]. apply held_put; [exact X|exact Logic.I].
Qed.

Lemma held_more : forall (P Q : gtext -> Prop) os, (forall k, P k -> Q k) -> all_held P os -> all_held Q os.
Proof.
  intros P Q os H A. eapply Forall_impl; [|exact A]. intros o K. unfold holds in *. destruct (o_kind o); auto. eapply Forall_impl; [|exact K].
  intros c Hc. unfold held in *. destruct c; auto.
Qed.

(** ** The font of a text has its characters *)

Definition cov (fs : list gfont) (k : gtext) : Prop :=
  exists f, nth_error fs (x_font k) = Some f /\ x_index k = gf_count f + 1 /\ valid_utf8 (x_text k) /\ forall r, In r (runes (x_text k)) -> exists v, val_of (gf_map f) r = Some v.
Lemma cov_keeps : forall fs fs' k, keeps fs fs' -> cov fs k -> cov fs' k.
Proof.
  intros fs fs' k K (f & N & I & Va & C). destruct (K _ _ N) as (f' & l & N' & S & M). exists f'. split; [exact N'|]. split; [unfold skel in S; congruence|]. split; [exact Va|].
  intros r Hr. destruct (C r Hr) as (v & E). exists v. rewrite M, val_of_app, E. reflexivity.
Qed.
Definition counts_differ (fs : list gfont) : Prop := forall n m f f', nth_error fs n = Some f -> nth_error fs m = Some f' -> gf_count f = gf_count f' -> n = m.
Definition one_each (fs : list gfont) : Prop :=
  forall n m f f', nth_error fs n = Some f -> nth_error fs m = Some f' -> gf_family f = gf_family f' -> no_underline (gf_style f) = no_underline (gf_style f') -> n = m.
Lemma rels_differ : forall fs k rs, rels fs k rs -> one_each fs -> counts_differ fs.
Proof.
  intros fs k rs [_ Ea A] O n m f f' N M E.
  assert (X : forall n f, nth_error fs n = Some f -> exists j r, nth_error rs j = Some r /\ keyed r f /\ gf_count f = Z.of_nat j).
  { clear n m f f' N M E. intros n f N. destruct (A n f N) as (j & r & J & K). exists j, r. split; [exact J|]. split; [exact K|]. destruct (Ea j r J) as (_ & n' & f' & N' & C & _ & K' & _).
    destruct K as (K1 & K2). destruct K' as (K3 & K4). assert (n = n') by (eapply O; [exact N|exact N'|congruence|congruence]). subst n'. congruence. }
  destruct (X _ _ N) as (j & r & J & K & C). destruct (X _ _ M) as (j' & r' & J' & K' & C'). assert (j = j') by lia. subst j'. assert (r = r') by congruence. subst r'.
  destruct K as (K1 & K2). destruct K' as (K3 & K4). eapply O; [exact N|exact M|congruence|congruence].
Qed.
Lemma differ_skel : forall fs fs', map skel fs' = map skel fs -> counts_differ fs -> counts_differ fs'.
Proof.
  intros fs fs' E D n m f f' N M C. destruct (skel_back _ _ E _ _ N) as (f1 & N1 & S1). destruct (skel_back _ _ E _ _ M) as (f2 & N2 & S2). unfold skel in S1, S2. eapply D; [exact N1|exact N2|congruence].
Qed.
Lemma once_fonts : forall l fs, Forall2 same_font l fs ->
  (forall n m a b, nth_error l n = Some a -> nth_error l m = Some b -> af_family a = af_family b -> no_underline (af_style a) = no_underline (af_style b) -> n = m) -> one_each fs.
Proof.
  intros l fs H O.
  assert (X : forall n f, nth_error fs n = Some f -> exists a, nth_error l n = Some a /\ same_font a f).
  { clear O. induction H as [|a f l fs Hx H IH]; intros [|n] g N; try discriminate; cbn [nth_error] in *; [injection N as <-; eauto|auto]. }
  intros n m f f' N M E1 E2. destruct (X _ _ N) as (a & A & (S1 & S2 & _)). destruct (X _ _ M) as (b & A' & (S3 & S4 & _)). eapply O; [exact A|exact A'|congruence|congruence].
Qed.
Lemma each_back : forall fs fs', keeps fs fs' -> one_each fs' -> one_each fs.
Proof.
  intros fs fs' K O n m f f' N M E1 E2. destruct (K _ _ N) as (g1 & _ & N1 & S1 & _). destruct (K _ _ M) as (g2 & _ & N2 & S2 & _). unfold skel in S1, S2. eapply O; [exact N1|exact N2|congruence|congruence].
Qed.

Lemma loop_goes : forall f size text rs fi left lg idx out sum, wide f -> (forall r, In r rs -> exists v, val_of (gf_map f) r = Some v) -> exists b s, content_loop (gsfont f) size text rs fi left lg idx out sum = (b, Ok s).
Proof.
  intros f size text rs fi left lg idx out sum (U & W). revert fi left lg idx out sum. induction rs as [|r rs IH]; intros fi left lg idx out sum C; cbn [content_loop]; [eauto|].
  unfold char_index, char_width. cbn [gsfont sf_map sf_kern sf_rise sf_ttf]. destruct (C r (or_introl eq_refl)) as (g & V). rewrite V. destruct (W r g (val_of_in _ _ _ V)) as (wd & Ew). rewrite Ew.
  assert (K : exists kv, match gkern f with Some k => if fi then Ok 0 else ttf_to_pdf (kern_of k left r lg g) (unitsPerEm (gf_ttf f)) | None => Ok 0 end = Ok kv).
  { destruct (gkern f) as [k|]; [|eauto]. destruct fi; [eauto|]. unfold ttf_to_pdf. destruct (Z.eqb_spec (unitsPerEm (gf_ttf f)) 0); [lia|]. destruct (_ <? 0); eauto. }
  destruct K as (kv & Ek). rewrite Ek. apply IH. intros r0 H0. apply C. right. exact H0.
Qed.
Lemma valid_app : forall a b, valid_utf8 a -> valid_utf8 b -> valid_utf8 (a ++ b).
Proof. intros a b (x & Fx & ->) (y & Fy & ->). exists (x ++ y). split; [apply Forall_app; auto|rewrite flat_map_app; reflexivity]. Qed.
Lemma valid_nil : valid_utf8 []. Proof. exists []. split; [constructor|reflexivity]. Qed.

Lemma append_cov : forall fs l c text n f l' x y r, append_text fs l c text = (l', x, y, r) -> counts_differ fs -> Forall (held (cov fs)) l -> x_font c = n -> nth_error fs n = Some f -> x_index c = gf_count f + 1 -> x_text c = [] ->
  (forall q, In q (runes text) -> exists v, val_of (gf_map f) q = Some v) -> (valid_utf8 text -> Forall (held (cov fs)) l') /\ (wide f -> r = Ok tt).
Proof.
  intros fs l c text n f l' x y r H D A Fc N Ic Tc Cv. unfold append_text in H.
  match type of H with (let '(_, _) := ?m in _) = _ => destruct m as (before, cur) eqn:E end.
  assert (C0 : cov fs c). { exists f. rewrite Fc. split; [exact N|]. split; [exact Ic|]. rewrite Tc. split; [apply valid_nil|]. intros r0 []. }
  assert (X : Forall (held (cov fs)) before /\ cov fs cur /\ x_index cur = x_index c).
  { destruct (rev l) as [|o r0] eqn:Er; [injection E as <- <-; auto|]. assert (El : l = rev r0 ++ [o]) by (rewrite <- (rev_involutive l), Er; reflexivity).
    destruct o as [old| | | | | | | | |]; try (injection E as <- <-; auto; fail). destruct (is_same old c) eqn:Is; injection E as <- <-; [|auto]. rewrite El in A. apply Forall_app in A. destruct A as (A1 & A2). split; [exact A1|].
    inversion A2; subst. split; [assumption|]. unfold is_same in Is. destruct (x_rect old); [discriminate|]. repeat (apply andb_prop in Is; destruct Is as (Is & ?)). lia. }
  destruct X as (Bf & (f0 & N0 & I0 & Va & C1) & Ie). assert (x_font cur = n) by (eapply D; [exact N0|exact N|lia]). assert (f0 = f) by congruence. subst f0.
  rewrite N0 in H. assert (Rn : forall q, In q (runes (x_text cur ++ text)) -> exists v, val_of (gf_map f) q = Some v). { intros q Hq. rewrite runes_app in Hq by exact Va. apply in_app_iff in Hq. destruct Hq; auto. }
  destruct (create_content f cur (x_text cur ++ text)) as (cur', q) eqn:Ec. split.
  - intros Vt. assert (Y : cov fs cur').
    { unfold create_content in Ec. destruct (content _ _ _) as (bd, s). exists f.
      assert (Z : x_font cur' = x_font cur /\ x_index cur' = x_index cur /\ x_text cur' = x_text cur ++ text) by (destruct s; [destruct (match x_rect cur with Some _ => _ | None => _ end)|..]; injection Ec as <- _; auto).
      destruct Z as (-> & -> & ->). split; [exact N0|]. split; [exact I0|]. split; [apply valid_app; assumption|exact Rn]. }
    assert (Z : Forall (held (cov fs)) (before ++ [CText cur'])) by (apply Forall_app; split; [exact Bf|]; constructor; [exact Y|constructor]).
    destruct q as [(w, h)| | |]; injection H as <- _ _ _; exact Z.
  - intros W. unfold create_content, content in Ec. destruct (loop_goes f (x_size cur) (x_text cur ++ text) (runes (x_text cur ++ text)) true 0 0 0 (B"[<") 0 W Rn) as (b & s & Es). rewrite Es in Ec.
    destruct (match x_rect cur with Some _ => _ | None => _ end) as (cw, ch). injection Ec as _ <-. injection H as _ _ _ <-. reflexivity.
Qed.

(** ** Calls of text *)

Lemma chars_cov : forall g text g1 n e, add_text_chars g text = Ok (g1, n, e) -> maps_good (g_fonts g) ->
  exists f m, u_font (g_cur g) = Some n /\ nth_error (g_fonts g) n = Some f /\ g1 = g_set_fonts g (set_nth n (fun f => gf_set_map f m) (g_fonts g)) /\ good_map (gf_ttf f) m /\ (exists k, m = gf_map f ++ k) /\
    (e = None -> forall q, In q (runes text) -> exists v, val_of m q = Some v).
Proof.
  intros g text g1 n e H G. unfold add_text_chars in H. destruct (u_font (g_cur g)) as [k|]; [|discriminate]. destruct (nth_error (g_fonts g) k) as [f|] eqn:N; [|discriminate].
  unfold maps_good in G. rewrite Forall_forall in G. specialize (G f (nth_error_In _ _ N)). destruct (add_chars (gf_ttf f) text (gf_map f)) as (m, o) eqn:E. unfold add_chars in E. destruct (add_runes_grows _ _ _ _ _ E G) as (G1 & l & -> & _).
  assert (k = n) by (destruct o; try discriminate; congruence). subst k. exists f, (gf_map f ++ l). split; [reflexivity|]. split; [exact N|].
  destruct o as [[]| | |]; try discriminate; injection H as <- <-; (split; [reflexivity|]; split; [exact G1|]; split; [eauto|]; intros Q q Hq); [|discriminate].
  destruct (add_runes_all _ _ _ _ E G q Hq) as (v & _ & V). eauto.
Qed.
Lemma set_keeps : forall fs n f m k, nth_error fs n = Some f -> m = gf_map f ++ k -> keeps fs (set_nth n (fun f => gf_set_map f m) fs).
Proof. intros fs n f m k N E. apply keeps_put. intros x Nx. assert (x = f) by congruence. subst x. split; [reflexivity|]. exists k. exact E. Qed.

Section Texts.
Variables (rnd : bytes) (cfg : gconfig) (w : gworld) (g0 : gp) (t : trace) (g : gp).
Hypothesis St : g_start rnd cfg gp0 = Ok g0.
Hypothesis R : runs w g0 t g.
Hypothesis Once : one_each (g_fonts g).
Hypothesis Held : all_held (cov (g_fonts g)) (g_objs g).

Lemma put_cov : forall cell rect al bo fl text n f m k, u_font (g_cur g) = Some n -> nth_error (g_fonts g) n = Some f -> m = gf_map f ++ k ->
  (forall q, In q (runes text) -> exists v, val_of m q = Some v) ->
  let g1 := g_set_fonts g (set_nth n (fun f => gf_set_map f m) (g_fonts g)) in
  (forall g' e, put_text g1 n cell rect al bo fl text = Ok (g', e) -> valid_utf8 text -> all_held (cov (g_fonts g')) (g_objs g')) /\
  (wide (gf_set_map f m) -> succeeds (put_text g1 n cell rect al bo fl text)).
Proof using St R Once Held.
  intros cell rect al bo fl text n f m k U N Em C g1. pose proof (laid_run _ _ _ _ _ _ St R) as L. destruct (ld_rels _ _ _ L) as (rs & xs & _ & Rl & _).
  destruct (ld_count _ _ _ L n U) as (f' & N' & Ct). assert (f' = f) by congruence. subst f'.
  assert (D : counts_differ (g_fonts g1)). { apply (differ_skel (g_fonts g)); [unfold g1; cbn [g_fonts g_set_fonts]; apply map_set_same; reflexivity|]. eapply rels_differ; [exact Rl|exact Once]. }
  assert (N1 : nth_error (g_fonts g1) n = Some (gf_set_map f m)). { unfold g1. cbn [g_fonts g_set_fonts]. rewrite nth_set_at, N, Nat.eqb_refl. reflexivity. }
  assert (H1 : all_held (cov (g_fonts g1)) (g_objs g1)). { eapply held_more; [|exact Held]. intros x. apply cov_keeps. eapply set_keeps; eauto. }
  assert (V1 : inv cfg g1 (map (made w) (pages_of t))) by (eapply inv_same; [exact (inv_run _ _ _ _ _ (inv_start _ _ _ St) R)|reflexivity..]).
  assert (U1 : g_cur g1 = g_cur g) by reflexivity. clearbody g1. unfold put_text. destruct (content_ok _ _ _ V1) as (g2 & i & s & cs & Ec). rewrite Ec. cbn [bind].
  destruct (content_held _ _ _ _ _ _ Ec H1) as (A1 & A2 & A3 & _).
  match goal with |- context [append_text (g_fonts g1) cs ?c text] => set (c0 := c); destruct (append_text (g_fonts g1) cs c0 text) as [[[cs' x] y] r] eqn:Ea end.
  assert (I0 : x_index c0 = gf_count (gf_set_map f m) + 1) by (unfold c0; cbn [x_index gf_count gf_set_map]; rewrite U1, Ct; reflexivity).
  destruct (append_cov _ _ _ _ n (gf_set_map f m) _ _ _ _ Ea D A2 eq_refl N1 I0 eq_refl C) as (X1 & X2). clearbody c0. split.
  - intros g' e H Vt. assert (E : g' = g_set_cur (put_kind g2 i (KContent s cs')) (u_set_xy (g_cur g1) x y)) by (destruct r; try discriminate; congruence). subst g'. cbn [g_fonts g_objs g_set_cur put_kind g_set_objs].
    change (g_fonts (put_kind g2 i (KContent s cs'))) with (g_fonts g2). rewrite A3. apply held_put; [exact A1|]. apply X1. exact Vt.
  - intros W. rewrite (X2 W). eexists. reflexivity.
Qed.
Lemma text_held : forall cell rect al bo fl text g' e, text_call cell rect al bo fl text g = Ok (g', e) -> valid_utf8 text -> all_held (cov (g_fonts g')) (g_objs g').
Proof using St R Once Held.
  intros cell rect al bo fl text g' e H Vt. unfold text_call in H. destruct (add_text_chars g text) as [[[g1 n] e1]| | |] eqn:E; cbn [bind] in H; try discriminate.
  destruct (chars_cov _ _ _ _ _ E (sd_maps _ _ _ (steady_run _ _ _ _ _ _ St R))) as (f & m & U & N & -> & _ & (k & Em) & C).
  destruct e1 as [e1|].
  - injection H as <- _. cbn [g_fonts g_objs g_set_fonts]. eapply held_more; [|exact Held]. intros x. apply cov_keeps. eapply set_keeps; eauto.
  - destruct (put_cov cell rect al bo fl text n f m k U N Em (C eq_refl)) as (X & _). eapply X; eauto.
Qed.
End Texts.

(** ** Runs *)
Lemma valid_prefix : forall t x, texts_valid (t ++ [x]) -> texts_valid t.
Proof. intros t x H y s Hy. apply H. apply in_app_iff. left. exact Hy. Qed.
Lemma held_run : forall rnd cfg w g0 t g, g_start rnd cfg gp0 = Ok g0 -> runs w g0 t g -> texts_valid t -> one_each (g_fonts g) -> all_held (cov (g_fonts g)) (g_objs g).
Proof.
  intros rnd cfg w g0 t g S R. pose proof (inv_start _ _ _ S) as V0. induction R as [|t g c g' e R IH Sc]; intros Va O.
  - unfold g_start in S. cbv zeta in S. cbn [addObj] in S. match type of S with bind ?e _ = _ => destruct e as [p| | |]; cbn [bind] in S; try discriminate end. injection S as <-.
    cbn [g_objs]. repeat (constructor; [exact Logic.I|]). constructor.
  - destruct (step_small _ _ _ _ _ (inv_proc _ _ _ (inv_run _ _ _ _ _ V0 R)) Sc) as (_ & Y & _). pose proof (keeps_next _ _ _ _ Y (sd_maps _ _ _ (steady_run _ _ _ _ _ _ S R))) as K.
    specialize (IH (valid_prefix _ _ Va) (each_back _ _ K O)). pose proof (each_back _ _ K O) as Og.
    assert (Vt : forall s, call_text c = Some s -> valid_utf8 s) by (intros s Es; apply (Va (g, c, e)); [apply in_app_iff; right; left; reflexivity|exact Es]).
    assert (M : all_held (cov (g_fonts g)) (g_objs g') -> all_held (cov (g_fonts g')) (g_objs g')) by (apply held_more; intros x; apply cov_keeps; exact K).
    destruct c; cbn [gstep] in Sc;
      try (apply M; unfold gok in Sc; cbn [bind] in Sc; injection Sc as <- _; exact IH);
      try (apply M; eapply gdraw_held; [exact Sc|intros ?; exact Logic.I|exact IH]);
      try (eapply (text_held _ _ _ _ _ _ S R Og IH); [exact Sc|apply Vt; reflexivity]).
    + apply M. unfold gok in Sc. cbn [bind] in Sc. injection Sc as <- _. unfold g_add_page. cbn [addObj]. cbv zeta. cbn [g_first g_set_objs g_set_cur]. destruct (g_first g =? -1);
        cbn [g_objs g_set_cur g_set_content g_set_first g_set_objs]; (apply Forall_app; split; [exact IH|constructor; [exact Logic.I|constructor]]).
    + apply M. unfold g_set_font in Sc. destruct (find_font _ _ _) as [n|]; [|injection Sc as <- _; exact IH]. destruct (nth_error _ n); [|discriminate]. injection Sc as <- _. exact IH.
    + apply M. unfold g_set_font in Sc. destruct (find_font _ _ _) as [n|]; [|injection Sc as <- _; exact IH]. destruct (nth_error _ n); [|discriminate]. injection Sc as <- _. exact IH.
    + apply M. eapply font_held; [exact Sc|exact IH].
    + apply M. unfold g_kern_override in Sc. destruct (find_font _ _ _); injection Sc as <- _; exact IH.
    + apply M. eapply image_held; [exact Sc|exact IH].
    + apply M. unfold gok in Sc. cbn [bind] in Sc. injection Sc as <- _. unfold g_compress_level. destruct (l <? -2); [exact IH|]. destruct (9 <? l); exact IH.
    + apply M. unfold g_measure in Sc. destruct (add_text_chars g text) as [[[g1 n] e1]| | |] eqn:E; cbn [bind] in Sc; try discriminate. destruct e1; [|discriminate]. injection Sc as <- _. destruct (chars_known _ _ _ _ _ E) as (-> & _). exact IH.
Qed.

Theorem texts_written : forall rnd cfg w g0 t g, g_start rnd cfg gp0 = Ok g0 -> runs w g0 t g -> texts_valid t -> added_once t ->
  Forall (fun a => has_widths (af_file a)) (added t) -> forall family style size a, s_font (settings_of cfg t) = Some (family, style, size) -> font_for (added t) family style = Some a ->
  forall c text, writes_text c = Some text -> font_has (af_file a) text -> succeeds (gstep w g c).
Proof.
  intros rnd cfg w g0 t g S R Va On HW family style size a Ef Fa c text Wt Fh.
  pose proof (added_run _ _ _ _ _ _ S R) as AR. assert (O : one_each (g_fonts g)) by (eapply once_fonts; [exact AR|exact On]). pose proof (held_run _ _ _ _ _ _ S R Va O) as Hd.
  pose proof (font_run _ _ _ _ _ _ S R) as FN. unfold font_now in FN. rewrite Ef in FN. destruct FN as (_ & _ & n & f & a' & U & Nf & Ff & Na & _ & SF). assert (a' = a) by congruence. subst a'.
  assert (Wd : has_widths (af_file a)) by (unfold font_for in Fa; apply find_some in Fa; destruct Fa as (Ia & _); rewrite Forall_forall in HW; apply HW; exact Ia).
  pose proof (sd_maps _ _ _ (steady_run _ _ _ _ _ _ S R)) as MG. assert (Gf : good_map (gf_ttf f) (gf_map f)) by (unfold maps_good in MG; rewrite Forall_forall in MG; exact (MG _ (nth_error_In _ _ Nf))).
  assert (X : forall cell rect al bo fl, succeeds (text_call cell rect al bo fl text g)).
  { intros cell rect al bo fl. unfold text_call. assert (E : exists m, add_text_chars g text = Ok (g_set_fonts g (set_nth n (fun f => gf_set_map f m) (g_fonts g)), n, None)).
    { unfold add_text_chars. rewrite U, Nf. destruct (add_chars (gf_ttf f) text (gf_map f)) as (m, o) eqn:E. exists m. assert (o = Ok tt); [|subst o; reflexivity].
      unfold add_chars in E. clear - E Fh SF. destruct SF as (_ & _ & Pt & _). assert (Fh' : forall q, In q (runes text) -> exists v, glyph_index (gf_ttf f) q = Ok v) by (intros q Hq; eapply Fh; eauto). clear Fh Pt. revert E Fh'. generalize (gf_map f). generalize (runes text).
      induction l as [|r rs IH]; intros m0 E Fh; cbn [add_runes] in E; [congruence|]. destruct (val_of m0 r); [eapply IH; [exact E|intros; apply Fh; right; assumption]|].
      destruct (Fh r (or_introl eq_refl)) as (v & Ev). rewrite Ev in E. eapply IH; [exact E|intros; apply Fh; right; assumption]. }
    destruct E as (m & E). rewrite E. cbn [bind]. destruct (chars_cov _ _ _ _ _ E MG) as (f1 & m1 & _ & N1 & E1 & Gm & (k & Em) & C). assert (f1 = f) by congruence. subst f1.
    assert (M : m1 = m). { apply (f_equal (fun g => nth_error (g_fonts g) n)) in E1. cbn [g_fonts g_set_fonts] in E1. rewrite !nth_set_at, Nf, Nat.eqb_refl in E1. cbn [option_map] in E1. apply (f_equal (fun o => match o with Some f => gf_map f | None => [] end)) in E1. symmetry. exact E1. }
    rewrite M in Em, Gm, C. destruct (put_cov _ _ _ _ _ _ S R O Hd cell rect al bo fl text n f m k U Nf Em (C eq_refl)) as (_ & Y). apply Y. apply (wide_font a); [exact Wd|exact SF|exact Gm]. }
  destruct c; try discriminate; cbn [writes_text] in Wt; injection Wt as ->; cbn [gstep]; apply X.
Qed.
