(** When the font maker's run ends well, and what it leaves when it does not. *)
From Coq Require Import String List ZArith Lia Bool.
From Coq.Floats Require Import SpecFloat.
From Verif Require Import Base BaseProofs Float64 Ttf TtfSpec TtfProofs TtfTables Subset PdfSyntax
  FontMaker FontMakerSpec FontMakerMap FontMakerChars FontMakerInfo FontMakerMake.
Open Scope Z_scope.
Open Scope list_scope.

(** ** Whatever the parser reads, the font maker can read *)
Lemma ushort_next : forall d p v q, readUShort d p = Ok (v, q) -> q = p + 2.
Proof. intros d p v q H. unfold readUShort, readN in H. apply bind_ok in H as ([x p'] & E & H). destruct (blen d <=? p); [discriminate|]. destruct (blen _ =? 2); [congruence|discriminate]. Qed.
Lemma times_next : forall d fuel n p l q, times (readUShort d) fuel n p = Ok (l, q) -> q = p + 2 * Z.of_nat (List.length l) /\ Z.of_nat (List.length l) = Z.max 0 n.
Proof.
  intros d fuel. induction fuel as [|fuel IH]; intros n p l q H; cbn [times] in H; (destruct (Z.leb_spec n 0); [assert (l = []) by congruence; subst l; assert (q = p) by congruence; cbn [List.length]; lia|]); [discriminate|].
  apply bind_ok in H as ([a p1] & E1 & H). apply bind_ok in H as ([l' p2] & E2 & H). apply ushort_next in E1. apply IH in E2 as (E2 & E3). assert (l = a :: l') by congruence. subst l. assert (q = p2) by congruence. subst.
  cbn [List.length]. lia.
Qed.
Lemma seg_reads : forall d k c de ro pos m p', scanSeg d k c ro pos = Ok p' -> exists m', charSeg d k c de ro pos m = Ok (p', m').
Proof.
  intros d. induction k as [|k IH]; intros c de ro pos m p' H; cbn [scanSeg charSeg] in *; [eexists; injection H as ->; reflexivity|].
  destruct (c =? 65535); [eexists; injection H as ->; reflexivity|]. destruct (0 <? ro).
  - apply bind_ok in H as ([g p1] & E & H). rewrite E. cbn [bind]. apply IH. exact H.
  - cbn [bind]. apply IH. exact H.
Qed.
Lemma segs_read : forall d off starts ends deltas ros i pos m p', scanSegs d off i starts ends ros pos = Ok p' -> exists m', charSegs d off i starts ends deltas ros pos m = Ok m'.
Proof.
  intros d off. induction starts as [|c1 starts IH]; intros ends deltas ros i pos m p' H; [eexists; reflexivity|]. destruct ends as [|c2 ends]; [eexists; reflexivity|]. destruct deltas as [|de deltas]; [eexists; reflexivity|].
  destruct ros as [|ro ros]; [eexists; reflexivity|]. cbn [scanSegs charSegs] in *. apply bind_ok in H as (p1 & E & H). destruct (seg_reads _ _ _ de _ _ m _ E) as (m1 & ->). cbn [bind]. eapply IH. exact H.
Qed.
Lemma all_read : forall d t, parseTtf d = Ok t -> (exists r, readLicense d t = Ok r) /\ (exists f, readFixed d t = Ok f) /\ (exists n, readPSName d t = Ok n) /\ exists m, readChars d t = Ok m.
Proof.
  intros d t H. unfold parseTtf in H.
  apply bind_ok in H as ([version p1] & E1 & H). destruct (negb (beqb version [0; 1; 0; 0])); [discriminate|].
  apply bind_ok in H as ([n p2] & E2 & H). apply bind_ok in H as ([tb p3] & E3 & H).
  apply bind_ok in H as ([[u [[[x0 y0] x1] y1]] loc] & E4 & H). apply bind_ok in H as ([[asc desc] nm] & E5 & H).
  apply bind_ok in H as ([ng p6] & E6 & H). apply bind_ok in H as ([w p7] & E7 & H).
  apply bind_ok in H as ([[sc [[[[st en] de] ro] gi]] gs] & E8 & H). apply bind_ok in H as ([] & E9 & H).
  apply bind_ok in H as ([[[[[[ver ta] td] wa] wd] sx] ch] & E10 & H). apply bind_ok in H as ([[ia up] ut] & E11 & H).
  apply bind_ok in H as ([short l] & E12 & H). injection H as <-. unfold readLicense, readFixed, readPSName, readChars. cbn [tables numberOfHMetrics segCount startCount endCount idDelta idRangeOffset glyphIdArray]. split; [|split; [|split]].
  - unfold parseOS2 in E10. apply bind_ok in E10 as (pos & -> & H). apply bind_ok in H as ([v q1] & Q1 & H). apply ushort_next in Q1. subst q1. apply bind_ok in H as ([ft q2] & Q2 & H).
    replace (pos + 2 + 6) with (pos + 8) in Q2 by lia. cbn [bind]. rewrite Q2. cbn [bind]. apply bind_ok in H as ([fs q3] & Q3 & H). rewrite Q3. cbn [bind]. eauto.
  - unfold parsePost in E11. apply bind_ok in E11 as (pos & -> & H). apply bind_ok in H as ([a q1] & Q1 & H). apply bind_ok in H as ([b2 q2] & Q2 & H). apply bind_ok in H as ([b3 q3] & Q3 & H).
    apply bind_ok in H as ([fp q4] & Q4 & H). cbn [bind].
    assert (Next : forall p v q, readShort d p = Ok (v, q) -> q = p + 2). { intros p v q Hs. unfold readShort in Hs. apply bind_ok in Hs as ([x p'] & Hx & Hs). apply ushort_next in Hx. congruence. }
    apply Next in Q1, Q2, Q3. subst q1 q2 q3. replace (pos + 4 + 2 + 2 + 2 + 2) with (pos + 12) in Q4 by lia. rewrite Q4. cbn [bind]. eauto.
  - unfold parseName in E9. apply bind_ok in E9 as (pos & -> & H). apply bind_ok in H as ([c q1] & Q1 & H). apply bind_ok in H as ([so q2] & Q2 & H). apply bind_ok in H as (s & Q3 & H).
    cbn [bind]. rewrite Q1. cbn [bind]. rewrite Q2. cbn [bind]. eauto.
  - rewrite E6. cbn [bind]. rewrite E7. cbn [bind]. unfold parseCmap in E8. apply bind_ok in E8 as ([nt q1] & Q1 & H). rewrite Q1. cbn [bind]. apply bind_ok in H as ([encs q2] & Q2 & H). rewrite Q2. cbn [bind].
    cbv zeta in H |- *. set (off31 := fold_left _ encs 0) in *. clearbody off31. destruct (off31 =? 0); [discriminate|]. apply bind_ok in H as ([fmt q3] & Q3 & H). apply ushort_next in Q3. destruct (negb (fmt =? 4)); [discriminate|].
    apply bind_ok in H as ([len q4] & Q4 & H). apply ushort_next in Q4. apply bind_ok in H as ([sc2 q5] & Q5 & H). apply ushort_next in Q5.
    apply bind_ok in H as ([ends q6] & Q6 & H). apply times_next in Q6 as (Q6 & L6). apply bind_ok in H as ([starts q7] & Q7 & H). apply times_next in Q7 as (Q7 & L7).
    apply bind_ok in H as ([deltas q8] & Q8 & H). apply times_next in Q8 as (Q8 & L8). apply bind_ok in H as ([ros q9] & Q9 & H). apply times_next in Q9 as (Q9 & L9).
    apply bind_ok in H as ([gids q10] & Q10 & H). apply times_next in Q10 as (Q10 & _). apply bind_ok in H as (q11 & Q11 & H). apply bind_ok in H as (gs' & _ & H).
    assert (sc = sc2 / 2) by congruence. assert (st = starts) by congruence. assert (en = ends) by congruence. assert (de = deltas) by congruence. assert (ro = ros) by congruence. assert (gi = gids) by congruence. subst sc st en de ro gi. clear H.
    destruct (Z.leb_spec 0 (sc2 / 2)) as [Ps|Ns].
    + replace (toffset (table0 tb (B"cmap")) + off31 + 16 + 6 * (sc2 / 2)) with q8 by lia. replace (toffset (table0 tb (B"cmap")) + off31 + 16 + 8 * (sc2 / 2) + 2 * Z.of_nat (List.length gids)) with q10 by lia.
      eapply segs_read. exact Q11.
    + assert (starts = []) by (destruct starts; [reflexivity|cbn [List.length] in L7; lia]). subst starts. eexists. reflexivity.
Qed.

(** ** Widths *)
Lemma widths_count : forall d t p q nm ng w, parseHmtx d t p nm ng = Ok (w, q) -> 0 <= nm -> Z.max nm ng <= Z.of_nat (List.length w).
Proof.
  intros d t p q nm ng w H Hn. unfold parseHmtx in H. apply bind_ok in H as ([l p1] & E & H). 
  assert (L : Z.of_nat (List.length l) = Z.max 0 nm).
  { clear H. unfold loop in E. revert E. generalize (seekTag' t (B"hmtx") p). generalize (Datatypes.S (List.length d)). intros fuel. clear Hn. revert nm l p1.
    induction fuel as [|fuel IH]; intros nm l p1 pos E; cbn [times] in E; (destruct (Z.leb_spec nm 0); [assert (l = []) by congruence; subst l; cbn [List.length]; lia|]); [discriminate|].
    apply bind_ok in E as ([a q1] & _ & E). apply bind_ok in E as ([l' q2] & E2 & E). apply IH in E2. assert (l = a :: l') by congruence. subst l. cbn [List.length]. lia. }
  destruct (Z.ltb_spec nm ng).
  - destruct (nm =? 0); [discriminate|]. apply bind_ok in H as (la & _ & H). assert (W : w = l ++ repeat la (Z.to_nat (ng - nm))) by congruence. subst w. rewrite app_length, repeat_length. lia.
  - assert (w = l) by congruence. subst w. lia.
Qed.
Lemma at_some : forall (l : list Z) i, 0 <= i < Z.of_nat (List.length l) -> exists v, at_ l i = Ok v.
Proof.
  intros l i H. unfold at_. destruct (Z.ltb_spec i 0); [lia|]. destruct (nth_error l (Z.to_nat i)) as [v|] eqn:E; [eauto|]. apply nth_error_None in E. lia.
Qed.
Lemma code_widths_some : forall t m miss fms, (forall f g, In f fms -> fm_name f <> B".notdef" -> char_at m (fm_uv f) = Some g -> 0 <= g < Z.of_nat (List.length (widths t))) ->
  exists r, code_widths t m miss fms = Ok r.
Proof.
  intros t m miss fms. induction fms as [|f fms IH]; intros H; [eexists; reflexivity|]. cbn [code_widths].
  assert (F : exists r, (if beqb (fm_name f) (B".notdef") then Ok (miss, []) else match char_at m (fm_uv f) with
            | Some g => do a <- at_ (widths t) g; Ok (mul_round (em_scale t) a, [])
            | None => Ok (miss, [B"Warning: Character " ++ fm_name f ++ B" (" ++ itoa (fm_uv f) ++ B") is missing"]) end) = Ok r).
  { destruct (beqb (fm_name f) (B".notdef")) eqn:E; [eauto|]. destruct (char_at m (fm_uv f)) as [g|] eqn:C; [|eauto].
    destruct (at_some (widths t) g) as (a & ->); [|cbn [bind]; eauto]. apply (H f g (or_introl eq_refl)); [|exact C]. intros X. rewrite X, beqb_refl in E. discriminate. }
  destruct F as ([w warn] & ->). cbn [bind]. destruct IH as ([ws warns] & ->); [intros f' g Hf; apply H; right; exact Hf|]. cbn [bind]. eauto.
Qed.

Theorem info_some : forall d t s es fms n v, Forall bytep d -> blen d < 4611686018427387904 -> segments_apart d -> parseTtf d = Ok t -> map_file s es -> load_map s = Ok fms ->
  num_glyphs d n -> 0 < n -> os2_u16 d 8 v -> v <> 2 -> Z.testbit v 9 = false ->
  (forall c uv x, 0 <= c < 256 -> code_entry es c = (uv, x) -> x <> B".notdef" -> uv <> 65535 /\ exists g, bmp_glyph d uv g /\ 0 <= g < n) ->
  exists r, get_info d fms = Ok r.
Proof.
  intros d t s es fms n v Hb Hl Ap Pt Ms Lm Ng Pn Ov V2 V9 Gl. destruct (all_read d t Pt) as (([em bo] & Li) & (fx & Fx) & (nm & Nm) & (m & Rc)).
  pose proof (parse_ok _ _ Hb Pt) as P. destruct (load_map_ok _ _ Ms) as (m1 & E1 & L1 & N1). assert (m1 = fms) by congruence. subst m1. clear E1.
  unfold get_info. rewrite Pt. cbn [bind]. rewrite Li. cbn [bind]. rewrite Fx. cbn [bind]. rewrite Nm. cbn [bind]. rewrite Rc. cbn [bind].
  assert (Em : em = true).
  { destruct Ov as (o & l & Ht & E). unfold readLicense in Li. apply bind_ok in Li as (p & E0 & H). apply (seekTag_ok _ _ _ _ _ _ (p_dir _ _ P) Ht) in E0. subst p. pose proof (has_table_range _ _ _ _ Hb Ht).
    rd H ft p1 Q1. rd H fs p2 Q2. assert (ft = v) by congruence. subst ft. assert (Ee : em = negb (v =? 2) && (Z.land v 512 =? 0)) by congruence. rewrite Ee.
    destruct (Z.eqb_spec v 2); [contradiction|]. cbn [negb andb]. apply Z.eqb_eq. apply Z.bits_inj'. intros k Hk. rewrite Z.land_spec, Z.bits_0. change 512 with (2 ^ 9). destruct (Z.eq_dec k 9) as [->|Ne]; [rewrite V9; reflexivity|].
    rewrite Z.pow2_bits_false by lia. apply andb_false_r. }
  subst em. cbn [negb].
  destruct (p_hmtx _ _ P) as (p & q & Hx). pose proof (maxp_ok _ _ _ Hb P Ng) as En.
  assert (Wn : n <= Z.of_nat (List.length (widths t))).
  { destruct (Z.leb_spec 0 (numberOfHMetrics t)) as [Hm|Hm]; [pose proof (widths_count _ _ _ _ _ _ _ Hx Hm); lia|].
    unfold parseHmtx in Hx. apply bind_ok in Hx as ([l p1] & E & H). destruct (Z.ltb_spec (numberOfHMetrics t) (numGlyphs t)); [|lia].
    destruct (numberOfHMetrics t =? 0); [discriminate|]. apply bind_ok in H as (la & El & _). unfold at_ in El. destruct (Z.ltb_spec (numberOfHMetrics t - 1) 0); [discriminate|lia]. }
  destruct (at_some (widths t) 0 ltac:(lia)) as (w0 & W0). rewrite W0. cbn [bind].
  match goal with |- context [code_widths t m ?x fms] => destruct (code_widths_some t m x fms) as ([ws warns] & Cw) end; [|rewrite Cw; cbn [bind]; eauto].
  intros f g Hf Nf Cf. apply In_nth_error in Hf as (k & Ek). assert (k < 256)%nat by (rewrite <- L1; apply nth_error_Some; congruence).
  pose proof (N1 (Z.of_nat k) ltac:(lia)) as E'. rewrite Nat2Z.id in E'. assert (f = fm (code_entry es (Z.of_nat k))) by congruence. subst f. pose proof (entry_char _ _ (Z.of_nat k) Ms) as Ch.
  destruct (code_entry es (Z.of_nat k)) as [uv x] eqn:Ce. cbn [fm fm_name fm_uv fst snd] in *. destruct (Gl (Z.of_nat k) uv x ltac:(lia) Ce Nf) as (N5 & g' & Bg & Rg).
  pose proof (chars_ok d t m uv g' Hb Hl P Rc Ap (Ch Nf) N5 Bg) as C. rewrite C in Cf. destruct (g' =? 0); [discriminate|]. assert (g' = g) by congruence. lia.
Qed.

(** ** Paths *)
Lemma lower_in : forall c s, ~ In c (lower s) -> 97 <= c <= 122 \/ c < 65 -> ~ In c s.
Proof. intros c s H R X. apply H. unfold lower. apply in_map_iff. exists c. split; [|exact X]. destruct (Z.leb_spec 65 c), (Z.leb_spec c 90); cbn [andb]; lia. Qed.
Lemma ext_rev_stop : forall a r acc, ~ In 46 a -> ~ In 47 a -> ext_rev (rev a ++ 46 :: r) acc = 46 :: a ++ acc.
Proof.
  intros a. induction a as [|c a IH] using rev_ind; intros r acc H H'; [reflexivity|]. rewrite rev_app_distr. cbn [rev app ext_rev]. rewrite in_app_iff in H, H'.
  destruct (Z.eqb_spec c 47) as [->|_]; [exfalso; apply H'; right; left; reflexivity|]. destruct (Z.eqb_spec c 46) as [->|_]; [exfalso; apply H; right; left; reflexivity|].
  rewrite IH by (intros X; first [solve [apply H; left; exact X]|solve [apply H'; left; exact X]]). rewrite <- app_assoc. reflexivity.
Qed.
Lemma ttf_ext : forall p, ttf_named p -> lower (path_ext p) = B".ttf".
Proof.
  intros p (q & rest & -> & E). fold (lower rest) in E. assert (N : forall c, c < 65 -> ~ In c rest). { intros c Hc. apply lower_in; [|right; exact Hc]. rewrite E. change (B"ttf") with [116; 116; 102]. intros [X|[X|[X|[]]]]; lia. }
  unfold path_ext. change (B"." ++ rest) with (46 :: rest). rewrite rev_app_distr. cbn [rev]. rewrite <- app_assoc. cbn [app].
  rewrite ext_rev_stop by (apply N; lia). rewrite app_nil_r. change (lower (46 :: rest)) with (46 :: lower rest). rewrite E. reflexivity.
Qed.
Lemma ext_rev_is : forall r acc x y, ext_rev r acc = x :: y -> x = 46 /\ exists z, rev r ++ acc = z ++ 46 :: y.
Proof.
  induction r as [|c r IH]; intros acc x y H; cbn [ext_rev] in H; [discriminate|]. destruct (c =? 47); [discriminate|]. destruct (Z.eqb_spec c 46) as [->|_].
  - assert (x = 46) by congruence. assert (y = acc) by congruence. subst. split; [reflexivity|]. exists (rev r). cbn [rev]. rewrite <- app_assoc. reflexivity.
  - apply IH in H as (-> & z & H). split; [reflexivity|]. exists z. cbn [rev]. rewrite <- app_assoc. exact H.
Qed.
Lemma ext_ttf : forall p, lower (path_ext p) = B".ttf" -> ttf_named p.
Proof.
  intros p H. unfold path_ext in H. destruct (ext_rev (rev p) []) as [|x y] eqn:E; [discriminate|]. apply ext_rev_is in E as (-> & z & E). rewrite rev_involutive, app_nil_r in E. subst p.
  exists z, y. split; [reflexivity|]. apply (f_equal (@tl Z)) in H. exact H.
Qed.

Theorem make_font_works : forall read write deflate fp mp enc out base d t s es s' cp n v,
  font_path fp base -> ttf_named fp -> base <> [] -> read fp = Some d -> read (mp ++ B"/" ++ enc ++ B".map") = Some s -> map_file s es -> read (mp ++ B"/cp1252.map") = Some s' -> map_file s' cp ->
  (forall p b, write p b = true) ->
  Forall bytep d -> blen d < 4611686018427387904 -> segments_apart d -> parseTtf d = Ok t -> num_glyphs d n -> 0 < n -> os2_u16 d 8 v -> v <> 2 -> Z.testbit v 9 = false ->
  (forall c uv x, 0 <= c < 256 -> code_entry es c = (uv, x) -> x <> B".notdef" -> uv <> 65535 /\ exists g, bmp_glyph d uv g /\ 0 <= g < n) ->
  o_res (make_font read write deflate fp mp enc out) = Ok tt.
Proof.
  intros read write deflate fp mp enc out base d t s es s' cp n v Fp Ep Nb Rd Rs Ms Rs' Ms' W Hb Hl Ap Pt Ng Pn Ov V2 V9 Gl.
  destruct (load_map_ok _ _ Ms) as (fms & Lm & _). destruct (load_map_ok _ _ Ms') as (ref & Lm' & _). destruct (info_some d t s es fms n v Hb Hl Ap Pt Ms Lm Ng Pn Ov V2 V9 Gl) as ([i warns] & Gi).
  unfold make_font, file_res, write_res. rewrite Rd, Rs, Rs'. cbn [stop]. rewrite ttf_ext by exact Ep. change (negb (beqb (B".ttf") (B".ttf"))) with false. cbv iota. rewrite Lm. cbn [stop]. rewrite Gi. cbn [stop].
  rewrite W. cbn [stop]. rewrite (font_base_ok fp base Fp). destruct base as [|c r]; [contradiction|]. unfold no_spaces. cbn [map go_name stop]. rewrite Lm'. cbn [stop]. rewrite W. reflexivity.
Qed.

(** ** Failures *)
Theorem go_file_last : forall read write deflate fp mp enc out, let o := make_font read write deflate fp mp enc out in
  (o_res o = Ok tt /\ exists z g, o_files o = [z; g]) \/ (o_res o <> Ok tt /\ (o_files o = [] \/ exists z, o_files o = [z])).
Proof.
  intros read write deflate fp mp enc out o. subst o. unfold make_font.
  destruct (file_res read fp) as [d|e| |]; cbn [stop o_res o_files]; try (right; split; [discriminate|left; reflexivity]).
  destruct (negb (beqb (lower (path_ext fp)) (B".ttf"))); cbn [stop o_res o_files]; try (right; split; [discriminate|left; reflexivity]).
  destruct (file_res read (mp ++ B"/" ++ enc ++ B".map")) as [ms|e| |]; cbn [stop o_res o_files]; try (right; split; [discriminate|left; reflexivity]).
  destruct (load_map ms) as [fms|e| |]; cbn [stop o_res o_files]; try (right; split; [discriminate|left; reflexivity]).
  destruct (get_info d fms) as [[i warns]|e| |]; cbn [stop o_res o_files]; try (right; split; [discriminate|left; reflexivity]).
  destruct (write_res write _ _) as [[]|e| |]; cbn [stop o_res o_files]; try (right; split; [discriminate|left; reflexivity]).
  destruct (go_name _) as [ty|e| |]; cbn [stop o_res o_files]; try (right; split; [discriminate|right; eauto]).
  destruct (file_res read (mp ++ B"/cp1252.map")) as [rs|e| |]; cbn [stop o_res o_files]; try (right; split; [discriminate|right; eauto]).
  destruct (load_map rs) as [ref|e| |]; cbn [stop o_res o_files]; try (right; split; [discriminate|right; eauto]).
  destruct (write_res write _ _) as [[]|e| |]; cbn [stop o_res o_files]; try (right; split; [discriminate|right; eauto]).
  left. split; [reflexivity|]. cbn [app]. eauto.
Qed.
(** What is left behind could be written. *)
Theorem files_written : forall read write deflate fp mp enc out, Forall (fun f => write (fst f) (snd f) = true) (o_files (make_font read write deflate fp mp enc out)).
Proof.
  intros read write deflate fp mp enc out. unfold make_font.
  destruct (file_res read fp) as [d|e| |]; cbn [stop o_files]; try constructor.
  destruct (negb (beqb (lower (path_ext fp)) (B".ttf"))); cbn [stop o_files]; try constructor.
  destruct (file_res read (mp ++ B"/" ++ enc ++ B".map")) as [ms|e| |]; cbn [stop o_files]; try constructor.
  destruct (load_map ms) as [fms|e| |]; cbn [stop o_files]; try constructor.
  destruct (get_info d fms) as [[i warns]|e| |]; cbn [stop o_files]; try constructor.
  set (z := out ++ B"/" ++ font_base fp ++ B".z"). unfold write_res at 1. destruct (write z (deflate d)) eqn:Wz; cbn [stop o_files]; [|constructor].
  assert (F1 : Forall (fun f => write (fst f) (snd f) = true) [(z, deflate d)]) by (constructor; [exact Wz|constructor]).
  destruct (go_name _) as [ty|e| |]; cbn [stop o_files]; try exact F1.
  destruct (file_res read (mp ++ B"/cp1252.map")) as [rs|e| |]; cbn [stop o_files]; try exact F1.
  destruct (load_map rs) as [ref|e| |]; cbn [stop o_files]; try exact F1.
  set (g := out ++ B"/" ++ font_base fp ++ B".font.go"). set (text := definition_text _ _ _ _). unfold write_res. destruct (write g text) eqn:Wg; cbn [stop o_files]; [|exact F1].
  constructor; [exact Wz|]. constructor; [exact Wg|constructor].
Qed.
Lemma refused_info : forall d fms v i, Forall bytep d -> os2_u16 d 8 v -> v = 2 \/ Z.testbit v 9 = true -> get_info d fms <> Ok i.
Proof.
  intros d fms v i Hb (o & l & Ht & E) V G. unfold get_info in G. apply bind_ok in G as (t & Pt & G). apply bind_ok in G as ([em bold] & Li & G). apply bind_ok in G as (fx & Fx & G). apply bind_ok in G as (nm & Nm & G).
  apply bind_ok in G as (m & Rc & G). pose proof (parse_ok _ _ Hb Pt) as P.
  unfold readLicense in Li. apply bind_ok in Li as (p & E0 & H). apply (seekTag_ok _ _ _ _ _ _ (p_dir _ _ P) Ht) in E0. subst p. pose proof (has_table_range _ _ _ _ Hb Ht).
  rd H ft p1 Q1. rd H fs p2 Q2. assert (ft = v) by congruence. subst ft. assert (Ee : em = negb (v =? 2) && (Z.land v 512 =? 0)) by congruence.
  assert (em = false) as ->; [|discriminate]. rewrite Ee. destruct V as [->|V]; [reflexivity|]. apply andb_false_iff. right. apply Z.eqb_neq. intros X.
  assert (T : Z.testbit (Z.land v 512) 9 = false) by (rewrite X; reflexivity). rewrite Z.land_spec, V in T. discriminate T.
Qed.
Theorem refused : forall read write deflate fp mp enc out,
  read fp = None \/ ~ ttf_named fp \/ read (mp ++ B"/" ++ enc ++ B".map") = None \/ (exists d v, read fp = Some d /\ Forall bytep d /\ os2_u16 d 8 v /\ (v = 2 \/ Z.testbit v 9 = true)) ->
  o_files (make_font read write deflate fp mp enc out) = [] /\ o_res (make_font read write deflate fp mp enc out) <> Ok tt.
Proof.
  intros read write deflate fp mp enc out H. unfold make_font, file_res. destruct (read fp) as [d|] eqn:Rd; cbn [stop o_files o_res]; [|split; [reflexivity|discriminate]].
  destruct (beqb (lower (path_ext fp)) (B".ttf")) eqn:Ex; cbn [negb stop o_files o_res]; [|split; [reflexivity|discriminate]].
  destruct (read (mp ++ B"/" ++ enc ++ B".map")) as [ms|] eqn:Rm; cbn [stop o_files o_res]; [|split; [reflexivity|discriminate]].
  destruct (load_map ms) as [fms|e| |]; cbn [stop o_res o_files]; try (split; [reflexivity|discriminate]).
  destruct (get_info d fms) as [[i warns]|e| |] eqn:Gi; cbn [stop o_res o_files]; try (split; [reflexivity|discriminate]). exfalso.
  destruct H as [H|[H|[H|(d' & v & E & Hb & Ov & V)]]]; try discriminate.
  - apply H. apply ext_ttf. apply beqb_eq. exact Ex.
  - assert (d' = d) by congruence. subst d'. exact (refused_info d fms v (i, warns) Hb Ov V Gi).
Qed.
