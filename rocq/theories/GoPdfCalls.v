(** How the calls of a program end (C90). *)
From Coq Require Import String List ZArith Lia Bool.
From Coq.Floats Require Import SpecFloat.
From Verif Require Import Base BaseProofs Utf8 Output Png Crypto Float64 Ttf TtfSpec TtfProofs TtfTables TtfTotal TtfCmap Subset CharMap Text TextCases ApiIds GoPdf GoPdfSpec GoPdfFile GoPdfPages GoPdfRun GoPdfDoc GoPdfTree GoPdfState GoPdfKeep GoPdfView GoPdfSetSpec GoPdfFonts GoPdfChain GoPdfCallSpec.
Open Scope Z_scope.
Open Scope list_scope.

(** ** Content objects *)

Lemma content_ok : forall cfg g pl, inv cfg g pl -> exists g1 i s cs, getContent g = Ok (g1, i, s, cs).
Proof.
  intros cfg g pl V. unfold getContent. destruct (iv_content _ _ _ V) as [(E & _)|(a & o & b & s & cs & E & L & K & _)].
  - rewrite E. change (-1 <=? -1) with true. cbn [addObj]. eauto 8.
  - destruct (Z.leb_spec (g_content g) (-1)); [lia|]. unfold kind_at, at_. destruct (Z.ltb_spec (g_content g) 0); [lia|].
    rewrite <- L, Nat2Z.id, E, nth_error_app2, Nat.sub_diag by lia. cbn [nth_error bind]. rewrite K. eauto 8.
Qed.
Lemma draw_ok : forall cfg g pl f, inv cfg g pl -> exists g', draw g f = Ok g'.
Proof. intros cfg g pl f V. unfold draw. destruct (content_ok _ _ _ V) as (g1 & i & s & cs & ->). cbn [bind]. eauto. Qed.
Lemma gdraw_ok : forall cfg g pl f, inv cfg g pl -> succeeds (gok (draw g f)).
Proof. intros cfg g pl f V. destruct (draw_ok _ _ _ f V) as (g' & E). unfold gok. rewrite E. exists g'. reflexivity. Qed.

(** ** The texts of the contents have fonts of the document *)

Definition known (n : nat) (c : gcache) : Prop := match c with CText k => (x_font k < n)%nat | _ => True end.
Definition knows (n : nat) (k : gkind) : Prop := match k with KContent _ cs => Forall (known n) cs | _ => True end.
Definition all_known (n : nat) (os : list gobj) : Prop := Forall (fun o => knows n (o_kind o)) os.

Lemma known_more : forall n m os, (n <= m)%nat -> all_known n os -> all_known m os.
Proof.
  intros n m os H A. eapply Forall_impl; [|exact A]. intros o K. unfold knows in *. destruct (o_kind o); auto. eapply Forall_impl; [|exact K].
  intros c Hc. unfold known in *. destruct c; auto. lia.
Qed.
Lemma known_add : forall n g k, all_known n (g_objs g) -> knows n k -> all_known n (g_objs (fst (addObj g k))).
Proof. intros n g k A K. cbn [addObj fst g_objs g_set_objs]. apply Forall_app. split; [exact A|]. constructor; [exact K|constructor]. Qed.
Lemma known_put : forall n g i k, all_known n (g_objs g) -> knows n k -> all_known n (g_objs (put_kind g i k)).
Proof.
  intros n g i k A K. unfold put_kind. cbn [g_objs g_set_objs]. unfold all_known in *. revert A. generalize (Z.to_nat i). induction (g_objs g) as [|o os IH]; intros m A; [destruct m; constructor|].
  inversion A; subst. destruct m; cbn [set_nth]; constructor; auto.
Qed.
Lemma content_known : forall n g g1 i s cs, getContent g = Ok (g1, i, s, cs) -> all_known n (g_objs g) -> all_known n (g_objs g1) /\ Forall (known n) cs /\ g_fonts g1 = g_fonts g /\ g_cur g1 = g_cur g.
Proof.
  intros n g g1 i s cs H A. unfold getContent in H. destruct (g_content g <=? -1).
  - cbn [addObj] in H. injection H as <- <- <- <-. split; [|split; [constructor|auto]]. apply (known_add n g (KContent [] []) A). constructor.
  - destruct (kind_at g (g_content g)) as [k| | |] eqn:Ek; cbn [bind] in H; try discriminate. destruct k; try discriminate. injection H as <- <- <- <-.
    split; [exact A|]. split; [|auto]. apply kind_at_nth in Ek. destruct Ek as (o & En & Eo & _). unfold all_known in A. rewrite Forall_forall in A. specialize (A o (nth_error_In _ _ En)). rewrite Eo in A. exact A.
Qed.
Lemma draw_known : forall n g f g', draw g f = Ok g' -> (forall h, known n (f h)) -> all_known n (g_objs g) -> all_known n (g_objs g').
Proof.
  intros n g f g' H F A. unfold draw in H. destruct (getContent g) as [[[[g1 i] s] cs]| | |] eqn:E; cbn [bind] in H; try discriminate. injection H as <-.
  destruct (content_known _ _ _ _ _ _ E A) as (A1 & A2 & _). apply known_put; [exact A1|]. cbn [knows]. apply Forall_app. split; [exact A2|]. constructor; [apply F|constructor].
Qed.
Lemma gdraw_known : forall n g f g' e, gok (draw g f) = Ok (g', e) -> (forall h, known n (f h)) -> all_known n (g_objs g) -> all_known n (g_objs g').
Proof. intros n g f g' e H F A. unfold gok in H. destruct (draw g f) as [g1| | |] eqn:E; cbn [bind] in H; try discriminate. injection H as <- <-. eapply draw_known; eauto. Qed.
Lemma append_known : forall fs l c text l' x y r, append_text fs l c text = (l', x, y, r) -> r <> Panic -> Forall (known (List.length fs)) l -> Forall (known (List.length fs)) l'.
Proof.
  intros fs l c text l' x y r H N A. unfold append_text in H.
  match type of H with (let '(_, _) := ?m in _) = _ => destruct m as (before, cur) eqn:E end.
  destruct (nth_error fs (x_font cur)) as [f|] eqn:Ef; [|congruence]. assert (Lf : (x_font cur < List.length fs)%nat) by (apply nth_error_Some; congruence).
  assert (Bf : Forall (known (List.length fs)) before).
  { destruct (rev l) as [|o r0] eqn:Er; [injection E as <- _; exact A|]. assert (El : l = rev r0 ++ [o]) by (rewrite <- (rev_involutive l), Er; reflexivity).
    destruct o as [old| | | | | | | | |]; try (injection E as <- _; exact A). destruct (is_same old c); injection E as <- _; [|exact A]. rewrite El in A. apply Forall_app in A. exact (proj1 A). }
  assert (X : forall w q, create_content f cur (x_text cur ++ text) = (w, q) -> Forall (known (List.length fs)) (before ++ [CText w])).
  { intros w q Ew. apply Forall_app. split; [exact Bf|]. constructor; [|constructor]. cbn [known]. unfold create_content in Ew. destruct (content _ _ _) as (bd, s).
    destruct s; [destruct (match x_rect cur with Some _ => _ | None => _ end)|..]; injection Ew as <- _; exact Lf. }
  destruct (create_content f cur (x_text cur ++ text)) as (cur', q) eqn:Ec. specialize (X _ _ eq_refl). destruct q as [(w, h)| | |]; injection H as <- _ _ _; exact X.
Qed.
Lemma chars_known : forall g t g' n e, add_text_chars g t = Ok (g', n, e) -> g_objs g' = g_objs g /\ List.length (g_fonts g') = List.length (g_fonts g) /\ g_content g' = g_content g.
Proof.
  intros g t g' n e H. unfold add_text_chars in H. destruct (u_font (g_cur g)) as [k|]; [|discriminate]. destruct (nth_error (g_fonts g) k) as [f|]; [|discriminate].
  destruct (add_chars (gf_ttf f) t (gf_map f)) as (m, r). destruct r; try discriminate; injection H as <- _ _; (split; [reflexivity|]; split; [|reflexivity]; cbn [g_fonts g_set_fonts]; apply set_nth_len).
Qed.
Lemma text_known : forall cell rect al bo fl t g g' e, text_call cell rect al bo fl t g = Ok (g', e) -> all_known (List.length (g_fonts g)) (g_objs g) -> all_known (List.length (g_fonts g)) (g_objs g').
Proof.
  intros cell rect al bo fl t g g' e H A. unfold text_call in H. destruct (add_text_chars g t) as [[[g1 n] e1]| | |] eqn:E; cbn [bind] in H; try discriminate.
  destruct (chars_known _ _ _ _ _ E) as (E1 & E2 & _). destruct e1 as [e1|]; [injection H as <- _; rewrite E1; exact A|].
  rewrite <- E2 in *. rewrite <- E1 in A. clear E E1 E2. unfold put_text in H. destruct (getContent g1) as [[[[g2 i] s] cs]| | |] eqn:E; cbn [bind] in H; try discriminate.
  destruct (content_known _ _ _ _ _ _ E A) as (A1 & A2 & _). destruct (append_text _ _ _ _) as [[[cs' x] y] r] eqn:Ea.
  assert (A3 : r <> Panic -> Forall (known (List.length (g_fonts g1))) cs') by (intros N; exact (append_known _ _ _ _ _ _ _ _ Ea N A2)).
  destruct r; try discriminate; injection H as <- _; cbn [g_objs g_set_cur]; apply known_put; try exact A1; cbn [knows]; apply A3; discriminate.
Qed.
Lemma image_known : forall w b id d x y r g g' e n, g_image w b id d x y r g = Ok (g', e) -> all_known n (g_objs g) -> all_known n (g_objs g').
Proof.
  intros w b id d x y rect g g' e n H A. unfold g_image in H. destruct (find _ _) as [((a, k), q)|].
  - destruct (k =? -1); [discriminate|]. destruct (match rect with Some _ => _ | None => _ end); cbn [bind] in H; try discriminate. eapply gdraw_known; [exact H| |exact A]. intros h. exact Logic.I.
  - destruct (match rect with Some _ => _ | None => _ end) as [q| | |]; try discriminate; [|injection H as <- <-; exact A].
    destruct (parseImg _ _ _ _ _) as [info| | |]; try discriminate; [|injection H as <- <-; exact A]. unfold img_put in H. destruct (addObj g (KImage info 0 (g_prot g))) as (g1, i) eqn:E1.
    assert (X : all_known n (g_objs g1)). { replace g1 with (fst (addObj g (KImage info 0 (g_prot g)))) by (rewrite E1; reflexivity). apply known_add; [exact A|exact Logic.I]. }
    clear E1. match type of H with bind ?m _ = _ => destruct m as [g2| | |] eqn:E2; cbn [bind] in H; try discriminate end.
    assert (Y : all_known n (g_objs g2)).
    { destruct (g_procset g1 =? -1); [injection E2 as <-; exact X|]. destruct (kind_at g1 (g_procset g1)) as [ps| | |]; cbn [bind] in E2; try discriminate. destruct ps; try discriminate.
      destruct (draw g1 _) as [g3| | |] eqn:Ed; cbn [bind] in E2; try discriminate. injection E2 as <-. cbn [g_objs g_set_cur]. apply known_put; [|exact Logic.I]. eapply draw_known; [exact Ed| |exact X]. intros h. exact Logic.I. }
    clear E2 X.
    match type of H with (if _ then (let (_, _) := addObj ?m _ in _) else _) = _ => set (g3 := m) in H end.
    assert (W : all_known n (g_objs g3)).
    { unfold g3. destruct (createSMask info) as [sm|]; [|exact Y]. destruct (addObj g2 (KSMask sm (g_prot g2))) as (g4, j) eqn:E4. apply known_put; [|exact Logic.I].
      replace g4 with (fst (addObj g2 (KSMask sm (g_prot g2)))) by (rewrite E4; reflexivity). apply known_add; [exact Y|exact Logic.I]. }
    clearbody g3. destruct (beqb (colspace info) (B"Indexed")); [|injection H as <- _; exact W].
    destruct (addObj g3 (KRgb (pal info))) as (g4, j) eqn:E4.
    assert (Z : all_known n (g_objs g4)). { replace g4 with (fst (addObj g3 (KRgb (pal info)))) by (rewrite E4; reflexivity). apply known_add; [exact W|exact Logic.I]. }
    destruct (kind_at g4 i) as [k| | |]; cbn [bind] in H; try discriminate. destruct k; try discriminate. injection H as <- _. apply known_put; [exact Z|exact Logic.I].
Qed.
Lemma font_known : forall f k st d b g g' e n, g_add_font f k st d b g = Ok (g', e) -> all_known n (g_objs g) -> all_known n (g_objs g').
Proof.
  intros f kern st file b g g' e n H A. unfold g_add_font in H. destruct (match file with Some _ => _ | None => _ end) as [(t, kp)| | |]; try discriminate; [|injection H as <- _; exact A].
  cbn [addObj] in H. cbv zeta in H. match type of H with (if g_procset ?g1 =? -1 then _ else _) = _ => set (g5 := g1) in H end.
  assert (X : all_known n (g_objs g5)). { unfold g5. cbn [g_objs g_set_objs]. repeat (apply Forall_app; split; [|constructor; [exact Logic.I|constructor]]). exact A. }
  clearbody g5. destruct (g_procset g5 =? -1); [match type of H with Ok (?a, _) = _ => assert (E2 : g' = a) by congruence end; subst g'; exact X|].
  destruct (kind_at g5 (g_procset g5)) as [ps| | |]; cbn [bind] in H; try discriminate. destruct ps; try discriminate.
  destruct (existsb _ _); match type of H with Ok (?a, _) = _ => assert (E2 : g' = a) by congruence end; subst g'; [exact X|]. cbn [g_objs g_set_fonts g_set_cur]. apply known_put; [exact X|exact Logic.I].
Qed.

Definition texts_known (g : gp) : Prop := all_known (List.length (g_fonts g)) (g_objs g).
Lemma known_step : forall w g c g' e, g_procset g <> -1 -> gstep w g c = Ok (g', e) -> texts_known g -> texts_known g'.
Proof.
  intros w g c g' e Np H A. unfold texts_known in *.
  assert (L : (List.length (g_fonts g) <= List.length (g_fonts g'))%nat). { destruct (step_small _ _ _ _ _ Np H) as (_ & Y & _). rewrite (fonts_len _ _ _ _ Y). lia. }
  eapply known_more; [exact L|]. clear L Np. destruct c; cbn [gstep] in H;
    try (unfold gok in H; cbn [bind] in H; injection H as <- _; exact A);
    try (eapply gdraw_known; [exact H|intros ?; exact Logic.I|exact A]);
    try (eapply text_known; [exact H|exact A]).
  - unfold gok in H. cbn [bind] in H. injection H as <- _. unfold g_add_page. cbn [addObj]. cbv zeta. cbn [g_first g_set_objs g_set_cur]. destruct (g_first g =? -1);
      cbn [g_objs g_set_cur g_set_content g_set_first g_set_objs]; (apply Forall_app; split; [exact A|constructor; [exact Logic.I|constructor]]).
  - unfold g_set_font in H. destruct (find_font _ _ _) as [n|]; [|injection H as <- _; exact A]. destruct (nth_error _ n); [|discriminate]. injection H as <- _. exact A.
  - unfold g_set_font in H. destruct (find_font _ _ _) as [n|]; [|injection H as <- _; exact A]. destruct (nth_error _ n); [|discriminate]. injection H as <- _. exact A.
  - eapply font_known; [exact H|exact A].
  - unfold g_kern_override in H. destruct (find_font _ _ _); injection H as <- _; exact A.
  - eapply image_known; [exact H|exact A].
  - unfold gok in H. cbn [bind] in H. injection H as <- _. unfold g_compress_level. destruct (l <? -2); [exact A|]. destruct (9 <? l); exact A.
  - unfold g_measure in H. destruct (add_text_chars g text) as [[[g1 n] e1]| | |] eqn:E; cbn [bind] in H; try discriminate. destruct e1; [|discriminate]. injection H as <- _. destruct (chars_known _ _ _ _ _ E) as (-> & _). exact A.
Qed.
Theorem known_run : forall rnd cfg w g0 t g, g_start rnd cfg gp0 = Ok g0 -> runs w g0 t g -> texts_known g.
Proof.
  intros rnd cfg w g0 t g S R. pose proof (inv_start _ _ _ S) as V0. induction R as [|t g c g' e R IH Sc].
  - unfold g_start in S. cbv zeta in S. cbn [addObj] in S. match type of S with bind ?e _ = _ => destruct e as [p| | |]; cbn [bind] in S; try discriminate end. injection S as <-.
    unfold texts_known. cbn [g_objs]. repeat (constructor; [exact Logic.I|]). constructor.
  - eapply known_step; [exact (inv_proc _ _ _ (inv_run _ _ _ _ _ V0 R))|exact Sc|exact IH].
Qed.

(** ** Glyphs *)

Lemma be_pos : forall b, Forall bytep b -> 0 <= be b.
Proof.
  intros b H. unfold be. assert (X : forall b v, 0 <= v -> Forall bytep b -> 0 <= fold_left (fun v c => 256 * v + c) b v).
  { clear. induction b as [|c b IH]; intros v Hv H; [exact Hv|]. inversion H as [|? ? Hc Hr]; subst. cbn [fold_left]. apply IH; [|exact Hr]. unfold bytep in Hc. lia. }
  apply X; [lia|exact H].
Qed.
Lemma forall_skip : forall A (P : A -> Prop) n l, Forall P l -> Forall P (skipn n l).
Proof. intros A P n. induction n as [|n IH]; intros l H; [exact H|]. destruct l; [constructor|]. inversion H; subst. cbn [skipn]. apply IH. assumption. Qed.
Lemma forall_first : forall A (P : A -> Prop) n l, Forall P l -> Forall P (firstn n l).
Proof. intros A P n. induction n as [|n IH]; intros l H; [constructor|]. destruct l; [constructor|]. inversion H; subst. cbn [firstn]. constructor; auto. Qed.
Lemma ulong_pos : forall d p v q, Forall bytep d -> readULong d p = Ok (v, q) -> 0 <= v.
Proof.
  intros d p v q Hb H. unfold readULong, readN in H. destruct (blen d <=? p); [discriminate|]. destruct (blen _ =? 4); cbn [bind] in H; [|discriminate]. assert (Ev : v = be (firstn (Z.to_nat 4) (skipn (Z.to_nat p) d))) by congruence. rewrite Ev.
  apply be_pos, forall_first, forall_skip, Hb.
Qed.
Lemma group_pos : forall d p s e g q, Forall bytep d -> readGroup d p = Ok ((s, e, g), q) -> 0 <= g.
Proof.
  intros d p s e g q Hb H. unfold readGroup in H. destruct (readULong d p) as [(v1, p1)| | |]; cbn [bind] in H; try discriminate. destruct (readULong d p1) as [(v2, p2)| | |]; cbn [bind] in H; try discriminate.
  destruct (readULong d p2) as [(v3, p3)| | |] eqn:E; cbn [bind] in H; try discriminate. injection H as _ _ <- _. eapply ulong_pos; eauto.
Qed.
Lemma times_all : forall A (P : A -> Prop) f fuel n pos l q, (forall p a r, f p = Ok (a, r) -> P a) -> times f fuel n pos = Ok (l, q) -> Forall P l.
Proof.
  intros A P f. induction fuel as [|k IH]; intros n pos l q F H; cbn [times] in H; (destruct (n <=? 0); [injection H as <- _; constructor|]); [discriminate|].
  destruct (f pos) as [(a, p1)| | |] eqn:E; cbn [bind] in H; try discriminate. destruct (times f k (n - 1) p1) as [(r, p2)| | |] eqn:E2; cbn [bind] in H; try discriminate. injection H as <- _.
  constructor; [eapply F; eauto|eapply IH; eauto].
Qed.
Lemma groups_pos : forall d t, Forall bytep d -> parsed d t -> Forall (fun x => 0 <= snd x) (groups t).
Proof.
  intros d t Hb P. destruct (p_cmap _ _ P) as (p & H). unfold parseCmap in H.
  repeat match type of H with
  | bind ?m _ = Ok _ => let E := fresh "E" in destruct m eqn:E; cbn [bind] in H; try discriminate H
  | (let (_, _) := ?m in _) = Ok _ => destruct m
  | (if ?m then _ else _) = Ok _ => destruct m; try discriminate H
  end.
  match goal with E : parseCmap12 _ _ _ = Ok ?x |- _ => assert (Ex : x = groups t) by congruence; rename E into G end. rewrite <- Ex. clear Ex H. unfold parseCmap12 in G.
  repeat match type of G with
  | bind ?m _ = Ok _ => let E := fresh "E" in destruct m eqn:E; cbn [bind] in G; try discriminate G
  | (let (_, _) := ?m in _) = Ok _ => destruct m
  | (if ?m then _ else _) = Ok _ => destruct m; try discriminate G
  | match ?m with Some _ => _ | None => _ end = Ok _ => destruct m as [[[? ?] ?]|]; [|injection G as <-; constructor]
  end.
  injection G as <-. match goal with E : loop _ (readGroup _) _ _ = Ok _ |- _ => unfold loop in E; eapply times_all; [|exact E] end.
  intros q ((s, e), g) r Hg. cbn [snd]. eapply group_pos; eauto.
Qed.
Lemma glyph_pos : forall d t r g, Forall bytep d -> parseTtf d = Ok t -> glyph_index t r = Ok g -> 0 <= g.
Proof.
  intros d t r g Hb Pt H. destruct (Z.leb_spec r 65535) as [L|L]; [destruct (glyph4_range _ _ _ L H); lia|]. unfold glyph_index in H. destruct (Z.leb_spec r 65535); [lia|].
  apply glyph12_sound in H. destruct H as (i & st & en & g0 & N & R & ->). pose proof (groups_pos _ _ Hb (parse_ok _ _ Hb Pt)) as F. rewrite Forall_forall in F. specialize (F _ (nth_error_In _ _ N)). cbn [snd] in F. lia.
Qed.
Lemma at_ends : forall A (l : list A) i, at_ l i <> Diverge.
Proof. intros A l i. unfold at_. destruct (i <? 0); [discriminate|]. destruct (nth_error _ _); discriminate. Qed.
Lemma seg_ends : forall ends n v s, seg_of ends n v s <> Diverge.
Proof.
  intros ends. induction n as [|n IH]; intros v s; cbn [seg_of]; [discriminate|]. pose proof (at_ends _ ends s) as A. destruct (at_ ends s) as [e| | |]; cbn [bind]; try discriminate; [|congruence].
  destruct (v <=? e); [discriminate|apply IH].
Qed.
Lemma glyph_ends : forall t r, glyph_index t r <> Diverge.
Proof.
  intros t r. unfold glyph_index. destruct (r <=? 65535).
  - unfold glyph4. pose proof (seg_ends (endCount t) (Z.to_nat (segCount t)) r 0) as A. destruct (seg_of _ _ _ _) as [s| | |]; cbn [bind]; try discriminate; [|congruence].
    pose proof (at_ends _ (startCount t) s) as A1. destruct (at_ (startCount t) s) as [a| | |]; cbn [bind]; try discriminate; [|congruence]. destruct (r <? a); [discriminate|].
    pose proof (at_ends _ (idRangeOffset t) s) as A2. destruct (at_ (idRangeOffset t) s) as [ro| | |]; cbn [bind]; try discriminate; [|congruence].
    pose proof (at_ends _ (idDelta t) s) as A3. destruct (at_ (idDelta t) s) as [dl| | |]; cbn [bind]; try discriminate; [|congruence]. destruct (ro =? 0); [discriminate|].
    match goal with |- bind (at_ ?l ?i) _ <> _ => pose proof (at_ends _ l i) as A4; destruct (at_ l i) as [q| | |] end; cbn [bind]; try discriminate; [|congruence]. destruct (q =? 0); discriminate.
  - induction (groups t) as [|[[a b] c] l IH]; cbn [glyph12]; [discriminate|]. destruct (_ && _); [discriminate|exact IH].
Qed.
Lemma add_runes_ends : forall t rs m m' o, add_runes t rs m = (m', o) -> o = Ok tt \/ (exists e, o = Err e) \/ (o = Panic /\ exists r, In r rs /\ glyph_index t r = Panic).
Proof.
  intros t. induction rs as [|r rs IH]; intros m m' o H; cbn [add_runes] in H; [injection H as _ <-; auto|].
  assert (X : forall m1, add_runes t rs m1 = (m', o) -> o = Ok tt \/ (exists e, o = Err e) \/ (o = Panic /\ exists x, In x (r :: rs) /\ glyph_index t x = Panic)).
  { intros m1 E. destruct (IH _ _ _ E) as [Y|[Y|(Y & x & Hx & Gx)]]; [auto|auto|]. right. right. split; [exact Y|]. exists x. split; [right; exact Hx|exact Gx]. }
  destruct (val_of m r); [eauto|]. pose proof (glyph_ends t r) as N. destruct (glyph_index t r) as [g| | |] eqn:G; [eauto|injection H as _ <-; eauto| |congruence].
  injection H as _ <-. right. right. split; [reflexivity|]. exists r. split; [left; reflexivity|exact G].
Qed.

(** ** Widths *)

Definition wide (f : gfont) : Prop := 0 < unitsPerEm (gf_ttf f) /\ forall r g, In (r, g) (gf_map f) -> exists w, glyph_width (gf_ttf f) g = Ok w.
Lemma wide_font : forall a f, has_widths (af_file a) -> same_font a f -> good_map (gf_ttf f) (gf_map f) -> wide f.
Proof.
  intros a f (Hb & (u & U & Up) & W) (_ & _ & Pt & _) (_ & G). pose proof (parse_ok _ _ Hb Pt) as P. split; [rewrite (units_ok _ _ _ Hb P U); exact Up|].
  intros r g Hg. rewrite Forall_forall in G. specialize (G _ Hg). cbn [fst snd] in G. pose proof (glyph_pos _ _ _ _ Hb Pt G) as Hp. destruct (W g Hp) as (w & Hw). exists (w * 1000 / u). eapply glyph_width_ok; eauto.
Qed.
Lemma loop_ends : forall f size text rs fi left lg idx out sum, wide f -> exists b r, content_loop (gsfont f) size text rs fi left lg idx out sum = (b, r) /\ tame r.
Proof.
  intros f size text rs fi left lg idx out sum (U & W). revert fi left lg idx out sum. induction rs as [|r rs IH]; intros fi left lg idx out sum; cbn [content_loop]; [eexists _, _; split; [reflexivity|exact Logic.I]|].
  unfold char_index, char_width. cbn [gsfont sf_map sf_kern sf_rise sf_ttf]. destruct (val_of (gf_map f) r) as [g|] eqn:V; [|eexists _, _; split; [reflexivity|exact Logic.I]].
  destruct (W r g (val_of_in _ _ _ V)) as (wd & Ew). rewrite Ew.
  assert (K : exists kv, match gkern f with Some k => if fi then Ok 0 else ttf_to_pdf (kern_of k left r lg g) (unitsPerEm (gf_ttf f)) | None => Ok 0 end = Ok kv).
  { destruct (gkern f) as [k|]; [|eauto]. destruct fi; [eauto|]. unfold ttf_to_pdf. destruct (Z.eqb_spec (unitsPerEm (gf_ttf f)) 0); [lia|]. destruct (_ <? 0); eauto. }
  destruct K as (kv & Ek). rewrite Ek. apply IH.
Qed.
Lemma create_ends : forall f c text, wide f -> exists c' r, create_content f c text = (c', r) /\ tame r.
Proof.
  intros f c text W. unfold create_content, content. destruct (loop_ends f (x_size c) text (runes text) true 0 0 0 (B"[<") 0 W) as (b & r & E & T). rewrite E.
  destruct r; try contradiction; [destruct (match x_rect c with Some _ => _ | None => _ end)|]; eexists _, _; (split; [reflexivity|exact Logic.I]).
Qed.
Lemma append_ends : forall fs l c text, Forall wide fs -> Forall (known (List.length fs)) l -> (x_font c < List.length fs)%nat -> exists l' x y r, append_text fs l c text = (l', x, y, r) /\ tame r.
Proof.
  intros fs l c text W K Kc. unfold append_text.
  match goal with |- exists l' x y r, (let '(_, _) := ?m in _) = _ /\ _ => destruct m as (before, cur) eqn:E end.
  assert (L : (x_font cur < List.length fs)%nat).
  { destruct (rev l) as [|o r0] eqn:Er; [injection E as _ <-; exact Kc|]. assert (El : l = rev r0 ++ [o]) by (rewrite <- (rev_involutive l), Er; reflexivity).
    destruct o as [old| | | | | | | | |]; try (injection E as _ <-; exact Kc). destruct (is_same old c); injection E as _ <-; [|exact Kc]. rewrite El in K. apply Forall_app in K. destruct K as (_ & K). inversion K; assumption. }
  destruct (nth_error fs (x_font cur)) as [f|] eqn:Ef; [|apply nth_error_None in Ef; lia]. rewrite Forall_forall in W. specialize (W _ (nth_error_In _ _ Ef)).
  destruct (create_ends f cur (x_text cur ++ text) W) as (c' & r & Ec & T). rewrite Ec. destruct r as [(w, h)| | |]; try contradiction; eexists _, _, _, _; (split; [reflexivity|exact Logic.I]).
Qed.

(** ** Calls of text *)

Lemma chars_end : forall g text n f, u_font (g_cur g) = Some n -> nth_error (g_fonts g) n = Some f -> good_map (gf_ttf f) (gf_map f) ->
  (exists m, add_text_chars g text = Ok (g_set_fonts g (set_nth n (fun f => gf_set_map f m) (g_fonts g)), n, None) /\ good_map (gf_ttf f) m) \/
  (exists g' e, add_text_chars g text = Ok (g', n, Some e)) \/
  (add_text_chars g text = Panic /\ exists r, In r (runes text) /\ glyph_index (gf_ttf f) r = Panic).
Proof.
  intros g text n f U N G. unfold add_text_chars. rewrite U, N. destruct (add_chars (gf_ttf f) text (gf_map f)) as (m, o) eqn:E. unfold add_chars in E.
  destruct (add_runes_ends _ _ _ _ _ E) as [->|[(e & ->)|(-> & X)]]; [left|right; left|right; right; auto].
  - exists m. split; [reflexivity|]. destruct (add_runes_grows _ _ _ _ _ E G) as (G1 & _). exact G1.
  - eauto.
Qed.
Lemma same_files : forall l fs, Forall2 same_font l fs -> Forall (fun a => has_widths (af_file a)) l -> maps_good fs -> Forall wide fs.
Proof.
  intros l fs H. induction H as [|a f l fs Hx H IH]; intros A G; [constructor|]. inversion A; subst. inversion G; subst. constructor; [eapply wide_font; eauto|apply IH; assumption].
Qed.

Section Calls.
Variables (rnd : bytes) (cfg : gconfig) (w : gworld) (g0 : gp) (t : trace) (g : gp).
Hypothesis St : g_start rnd cfg gp0 = Ok g0.
Hypothesis R : runs w g0 t g.

Lemma text_ends : forall cell rect al bo fl text, text_end (settings_of cfg t) (added t) text (text_call cell rect al bo fl text g).
Proof using St R.
  intros cell rect al bo fl text. unfold text_end. pose proof (font_run _ _ _ _ _ _ St R) as FN. unfold font_now in FN.
  destruct (s_font (settings_of cfg t)) as [((family, style), size)|].
  - destruct FN as (_ & _ & n & f & a & U & Nf & Ff & _ & _ & SF). exists a. split; [exact Ff|]. intros HW.
    pose proof (added_run _ _ _ _ _ _ St R) as AR. pose proof (sd_maps _ _ _ (steady_run _ _ _ _ _ _ St R)) as MG.
    assert (Gf : good_map (gf_ttf f) (gf_map f)) by (unfold maps_good in MG; rewrite Forall_forall in MG; exact (MG _ (nth_error_In _ _ Nf))).
    unfold text_call. destruct (chars_end g text n f U Nf Gf) as [(m & E & Gm)|[(g' & e & E)|(E & r & Hr & Gr)]]; rewrite E; cbn [bind].
    + set (g1 := g_set_fonts g _). pose proof (inv_run _ _ _ _ _ (inv_start _ _ _ St) R) as Vi.
      assert (V1 : inv cfg g1 (map (made w) (pages_of t))) by (eapply inv_same; [exact Vi|reflexivity..]).
      unfold put_text. destruct (content_ok _ _ _ V1) as (g2 & i & s & cs & Ec). rewrite Ec. cbn [bind].
      assert (Lf : List.length (g_fonts g1) = List.length (g_fonts g)) by (unfold g1; cbn [g_fonts g_set_fonts]; apply set_nth_len).
      assert (A1 : all_known (List.length (g_fonts g1)) (g_objs g1)) by (rewrite Lf; exact (known_run _ _ _ _ _ _ St R)).
      destruct (content_known _ _ _ _ _ _ Ec A1) as (_ & A2 & _).
      assert (W1 : Forall wide (g_fonts g1)).
      { apply (same_files (added t)); [|exact HW|].
        - unfold g1. cbn [g_fonts g_set_fonts]. apply forall2_set; [exact AR|]. intros x y X. exact X.
        - unfold g1, maps_good. cbn [g_fonts g_set_fonts]. apply Forall_forall. intros x Hx. apply In_nth_error in Hx. destruct Hx as (k & Hk). rewrite nth_set_at in Hk.
          destruct (Nat.eqb_spec n k); [subst k; rewrite Nf in Hk; cbn [option_map] in Hk; injection Hk as <-; exact Gm|].
          unfold maps_good in MG. rewrite Forall_forall in MG. apply MG. apply (nth_error_In _ k). destruct (nth_error (g_fonts g) k); cbn [option_map] in Hk; [congruence|discriminate]. }
      assert (Ln : (n < List.length (g_fonts g1))%nat) by (rewrite Lf; apply nth_error_Some; congruence).
      match goal with |- context [append_text (g_fonts g1) cs ?c text] => destruct (append_ends (g_fonts g1) cs c text W1 A2 Ln) as (l' & x & y & r & Ea & T); rewrite Ea end.
      destruct r; try contradiction; [left; eexists; reflexivity|right; left; eexists _, _; reflexivity].
    + right. left. eexists _, _. reflexivity.
    + right. right. split; [reflexivity|]. destruct SF as (_ & _ & Pt & _). eauto.
  - unfold text_call, add_text_chars. rewrite FN. reflexivity.
Qed.
Lemma measure_ends : forall text, (s_font (settings_of cfg t) = None -> dies (g_measure text g)) /\ (dies (g_measure text g) \/ fails (g_measure text g)).
Proof using St R.
  intros text. pose proof (font_run _ _ _ _ _ _ St R) as FN. unfold font_now in FN. split.
  - intros E. rewrite E in FN. unfold g_measure, add_text_chars. rewrite FN. reflexivity.
  - destruct (s_font (settings_of cfg t)) as [((family, style), size)|]; [|left; unfold g_measure, add_text_chars; rewrite FN; reflexivity].
    destruct FN as (_ & _ & n & f & a & U & Nf & _). pose proof (sd_maps _ _ _ (steady_run _ _ _ _ _ _ St R)) as MG.
    assert (Gf : good_map (gf_ttf f) (gf_map f)) by (unfold maps_good in MG; rewrite Forall_forall in MG; exact (MG _ (nth_error_In _ _ Nf))).
    unfold g_measure. destruct (chars_end g text n f U Nf Gf) as [(m & E & Gm)|[(g' & e & E)|(E & _)]]; rewrite E; cbn [bind]; [left; reflexivity|right; eexists _, _; reflexivity|left; reflexivity].
Qed.

(** ** Fonts *)

Lemma find_ends : forall p q, (forall a f, same_font a f -> q f = p a) ->
  match find_font (g_objs g) (g_fonts g) q with Some n => existsb p (added t) = true /\ exists f, nth_error (g_fonts g) n = Some f | None => existsb p (added t) = false end.
Proof using St R.
  intros p q Hpq. pose proof (added_run _ _ _ _ _ _ St R) as AR. pose proof (nums_run _ _ _ _ _ _ St R) as K.
  assert (X : existsb p (added t) = existsb q (g_fonts g)). { clear K. induction AR as [|a f l fs Hx H IH]; [reflexivity|]. cbn [existsb]. rewrite IH, (Hpq _ _ Hx). reflexivity. }
  rewrite X. rewrite find_font_nums. change (map _ (g_objs g)) with (V g). rewrite K. pose proof (find_seq _ q (g_fonts g) 0 [] eq_refl) as F. cbn [app] in F. destruct (find _ _) as [n|].
  - destruct F as (f & a & b & N & P & E & _). split; [|eauto]. apply existsb_exists. exists f. split; [eapply nth_error_In; exact N|exact P].
  - clear - F. induction (g_fonts g) as [|f fs IH]; [reflexivity|]. cbn [forallb existsb] in *. apply andb_prop in F. destruct F as (F1 & F2). rewrite (IH F2). destruct (q f); [discriminate|reflexivity].
Qed.
Lemma find_exists : forall A (p : A -> bool) l, match find p l with Some _ => true | None => false end = existsb p l.
Proof using. intros A p l. induction l as [|x l IH]; [reflexivity|]. cbn [find existsb]. destruct (p x); [reflexivity|exact IH]. Qed.
Lemma set_ends : forall family style size, if match font_for (added t) family style with Some _ => true | None => false end then succeeds (g_set_font family style size g) else fails (g_set_font family style size g).
Proof using St R.
  intros family style size. unfold font_for. rewrite find_exists. unfold g_set_font.
  pose proof (find_ends (of_style family style) (has_font family style)) as F. unfold has_font in F. destruct (find_font _ _ _) as [n|].
  - destruct F as (-> & f & Nf); [intros a f (X1 & X2 & _); rewrite X1, X2; reflexivity|]. rewrite Nf. eexists. reflexivity.
  - rewrite F; [eexists _, _; reflexivity|]. intros a f (X1 & X2 & _); rewrite X1, X2; reflexivity.
Qed.
Lemma over_ends : forall family k, if existsb (fun a => beqb (af_family a) family) (added t) then succeeds (g_kern_override family k g) else fails (g_kern_override family k g).
Proof using St R.
  intros family k. unfold g_kern_override. pose proof (find_ends (fun a => beqb (af_family a) family) (fun f => beqb (gf_family f) family)) as F. destruct (find_font _ _ _) as [n|].
  - destruct F as (-> & _); [intros a f (X1 & _); rewrite X1; reflexivity|]. eexists. reflexivity.
  - rewrite F; [eexists _, _; reflexivity|]. intros a f (X1 & _); rewrite X1; reflexivity.
Qed.
Lemma kern_tame : forall d tb, tame (parseKern d tb).
Proof using.
  intros d tb. unfold parseKern. destruct (table_of tb (B"kern")) as [e|]; [|exact Logic.I]. apply tame_bind; [apply readUShort_tame|]. intros (v, p) _. apply tame_bind; [apply readUShort_tame|]. intros (n, q) _.
  generalize (@nil (Z * Z * Z)). generalize q. induction (Z.to_nat n) as [|m IH]; intros pos k; cbn [kern_subtables]; [exact Logic.I|]. apply tame_bind; [|intros (k2, p2) _; apply IH].
  unfold kern_subtable. apply tame_bind; [apply readUShort_tame|]. intros (cov, p3) _. destruct (negb _); [exact Logic.I|]. destruct (readUShort d p3) as [(x, y)| | |]; exact Logic.I.
Qed.
Lemma add_ends : forall family kerning style d b, Forall bytep d -> let r := g_add_font family kerning style (Some d) b g in succeeds r \/ fails r \/ (dies r /\ zero_metrics d).
Proof using St R.
  intros family kerning style d b Hb r. unfold r, g_add_font. clear r. destruct (parse_total d Hb) as [T|(E & Z)]; [|rewrite E; cbn [bind]; right; right; split; [reflexivity|exact Z]].
  destruct (parseTtf d) as [tf| | |]; try contradiction; cbn [bind]; [|right; left; eexists _, _; reflexivity].
  assert (K : tame (if kerning then parseKern d (tables tf) else Ok [])) by (destruct kerning; [apply kern_tame|exact Logic.I]).
  destruct (if kerning then parseKern d (tables tf) else Ok []) as [kp| | |]; try contradiction; cbn [bind]; [|right; left; eexists _, _; reflexivity].
  left. cbn [addObj]. cbv zeta. pose proof (inv_run _ _ _ _ _ (inv_start _ _ _ St) R) as Vi. destruct (iv_cfg _ _ _ Vi) as (_ & _ & EP & _). destruct (iv_objs _ _ _ Vi) as (fs & xs & rest & O & _).
  match goal with |- succeeds (if g_procset ?g1 =? -1 then _ else _) => set (g5 := g1) end.
  assert (E1 : g_procset g5 = 2) by exact EP. assert (E2 : exists r2, g_objs g5 = [new_obj KCatalog; new_obj (KPages 0 []); new_obj (KProcSet fs xs)] ++ r2) by (unfold g5; cbn [g_objs g_set_objs]; rewrite O, <- !app_assoc; eauto).
  clearbody g5. destruct E2 as (r2 & E2). rewrite E1. change (2 =? -1) with false. cbn iota. unfold kind_at. rewrite E2. change (at_ ([new_obj KCatalog; new_obj (KPages 0 []); new_obj (KProcSet fs xs)] ++ r2) 2) with (Ok (new_obj (KProcSet fs xs))). cbn [bind new_obj o_kind].
  destruct (existsb _ _); eexists; reflexivity.
Qed.

(** ** Pictures *)

Lemma put_ends : forall pl id d x y r info, inv cfg g pl -> succeeds (img_put id d x y r info g).
Proof using.
  intros pl id d x y r info Vi. unfold img_put. destruct (addObj g (KImage info 0 (g_prot g))) as (g1, i) eqn:E1.
  destruct (add_inv _ _ _ _ _ _ Vi E1 eq_refl eq_refl) as (V1 & K1). destruct (iv_cfg _ _ _ V1) as (_ & _ & P1 & _). rewrite P1. change (2 =? -1) with false. cbn iota.
  destruct (iv_objs _ _ _ V1) as (fs & xs & rest & O & _).
  assert (K2 : kind_at g1 2 = Ok (KProcSet fs xs)) by (unfold kind_at; rewrite O; reflexivity). rewrite K2. cbn [bind].
  match goal with |- context [draw g1 ?f] => destruct (draw_ok _ _ _ f V1) as (g2 & E2); rewrite E2 end. cbn [bind].
  destruct (draw_inv _ _ _ _ _ V1 E2) as (V2 & _). pose proof (draw_kind _ _ _ _ _ E2 K1 ltac:(discriminate)) as K3. destruct (iv_cfg _ _ _ V2) as (_ & _ & P2 & _). 
  match goal with |- context [g_set_cur ?a ?b] => set (g3 := g_set_cur a b) end.
  assert (Ni : i <> 2). { intros ->. congruence. }
  assert (K4 : kind_at g3 i = Ok (KImage info 0 (g_prot g))).
  { transitivity (kind_at (put_kind g2 2 (KProcSet fs (xs ++ [i]))) i); [unfold g3; rewrite ?P2; reflexivity|]. rewrite kind_put_other by (try exact Ni; lia). exact K3. }
  clearbody g3.
  assert (Y : exists g4 info' p, match createSMask info with None => g3 | Some m => let (g, j) := addObj g3 (KSMask m (g_prot g3)) in put_kind g i (KImage (setSMaskObjID info j) 0 (g_prot g)) end = g4 /\ kind_at g4 i = Ok (KImage info' 0 p)).
  { destruct (createSMask info) as [m|]; [|exists g3, info, (g_prot g); auto]. destruct (addObj g3 (KSMask m (g_prot g3))) as (g5, j) eqn:E5.
    pose proof (kind_add _ _ _ _ _ _ E5 K4) as K5. eexists _, _, _. split; [reflexivity|]. eapply kind_put. exact K5. }
  destruct Y as (g4 & info' & p & EY & K5). rewrite EY. destruct (beqb (colspace info) (B"Indexed")); [|eexists; reflexivity].
  destruct (addObj g4 (KRgb (pal info))) as (g5, j) eqn:E5. pose proof (kind_add _ _ _ _ _ _ E5 K5) as K6. rewrite K6. cbn [bind]. eexists. reflexivity.
Qed.
Lemma rect_ends : forall d, match gw_bounds w d with
  | None => img_rect w d = Err EOther
  | Some (dx, dy) => (exists r, img_rect w d = Ok r) \/ (img_rect w d = Panic /\ (dx = 0 \/ dy = 0)) end.
Proof using.
  intros d. unfold img_rect. destruct (gw_bounds w d) as [(dx, dy)|]; [|reflexivity].
  destruct (_ =? 0).
  - destruct (Z.eqb_spec dy 0); cbn [bind]; [right; auto|]. destruct (_ =? 0); [|left; eexists; reflexivity]. destruct (Z.eqb_spec dx 0); cbn [bind]; [right; auto|left; eexists; reflexivity].
  - cbn [bind]. destruct (_ =? 0); [|left; eexists; reflexivity]. destruct (Z.eqb_spec dx 0); cbn [bind]; [right; auto|left; eexists; reflexivity].
Qed.
Lemma image_ends : forall id d b x y rect, end_of w cfg t (ImageBy id d b x y rect) (g_image w b id d x y rect g).
Proof using St R.
  intros id d b x y rect. cbn [end_of]. cbv zeta. pose proof (inv_run _ _ _ _ _ (inv_start _ _ _ St) R) as Vi. pose proof (find_named id _ _ (ld_names _ _ _ (laid_run _ _ _ _ _ _ St R))) as FN.
  destruct (sd_imgs _ _ _ (steady_run _ _ _ _ _ _ St R)) as (_ & Nu). unfold g_image. destruct (existsb _ _).
  - destruct (proj1 FN eq_refl) as (((nm, k), q) & E). rewrite E. apply find_some in E. destruct E as (E & _). apply In_nth_error in E. destruct E as (j & E). pose proof (Nu _ _ E) as Ek. cbn [fst snd] in Ek. subst k.
    destruct (Z.eqb_spec (Z.of_nat j) (-1)); [lia|].
    assert (X : exists r, match rect with Some r => Ok r | None => do c <- at_ (u_cache (g_cur g)) (Z.of_nat j); Ok (snd c) end = Ok r).
    { destruct rect as [r|]; [eauto|]. unfold at_. destruct (Z.ltb_spec (Z.of_nat j) 0); [lia|]. rewrite Nat2Z.id, E. cbn [bind]. eauto. }
    destruct X as (r & ->). cbn [bind]. eapply gdraw_ok. exact Vi.
  - destruct (find _ _) as [z|]; [exfalso; assert (false = true) by (apply FN; eauto); discriminate|].
    assert (P : forall r, picture_end w b d match parseImg (gw_config w) (gw_inflate w) (gw_compress w) b d with Ok info => img_put id d x y r info g | Err e => Ok (g, Some e) | Panic => Panic | Diverge => Diverge end).
    { intros r. unfold picture_end. destruct (parseImg _ _ _ _ _) as [info| | |]; [eapply put_ends; exact Vi|eexists _, _; reflexivity|reflexivity|reflexivity]. }
    destruct rect as [r|]; [apply P|]. pose proof (rect_ends d) as RE. destruct (gw_bounds w d) as [(dx, dy)|]; [|rewrite RE; eexists _, _; reflexivity].
    destruct RE as [(r & ->)|(-> & Z)]; [split; [intros _ _; apply P|left; apply P]|]. split; [intros; lia|right; reflexivity].
Qed.

Theorem calls_end : forall c, end_of w cfg t c (gstep w g c).
Proof using St R.
  intros c. pose proof (inv_run _ _ _ _ _ (inv_start _ _ _ St) R) as Vi.
  destruct c; try apply image_ends; cbn [end_of gstep]; cbv zeta; try (eexists; reflexivity); try (eapply gdraw_ok; exact Vi); try apply text_ends; try apply set_ends; try apply over_ends; try apply measure_ends.
  - destruct file as [d|]; [apply add_ends|]. eexists _, _; reflexivity.
  - eapply gdraw_ok. eapply inv_same; [exact Vi|reflexivity..].
  - unfold g_gray. eapply gdraw_ok. eapply inv_same; [exact Vi|reflexivity..].
Qed.
End Calls.
