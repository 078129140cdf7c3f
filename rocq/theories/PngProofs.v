(** Proofs about PNG images. *)
From Coq Require Import String List ZArith Lia Bool.
From Verif Require Import Base BaseProofs Png PngSpec.
Open Scope Z_scope.
Open Scope list_scope.

(** ** Separation of alpha *)
Definition quad (row : bytes) (w : nat) : Prop := List.length row = (4 * w)%nat.

Lemma quad_ind : forall (P : bytes -> Prop), P [] -> (forall r g b a l, P l -> P (r :: g :: b :: a :: l)) ->
  forall w row, quad row w -> P row.
Proof.
  intros P H0 H1. induction w as [|w IH]; intros row H; unfold quad in *.
  - destruct row; [auto|discriminate].
  - destruct row as [|r [|g [|b [|a l]]]]; cbn [List.length] in H; try lia. apply H1, IH. lia.
Qed.

Lemma idx3 : forall j, ((3 + j) / 3 = 1 + j / 3 /\ (3 + j) mod 3 = j mod 3)%nat.
Proof.
  intros. replace (3 + j)%nat with (j + 1 * 3)%nat by lia. rewrite Nat.div_add, Nat.mod_add by lia. lia.
Qed.

Definition i3 (j : nat) : nat := (4 * (j / 3) + j mod 3)%nat.

Lemma i3_step : forall j, i3 (3 + j) = (4 + i3 j)%nat.
Proof. intros. unfold i3. destruct (idx3 j) as (-> & ->). lia. Qed.

Lemma rgb_nth : forall w row, quad row w -> forall j, nth j (rgb row) 0 = nth (i3 j) row 0.
Proof.
  intros w row H. pattern row. apply (quad_ind _) with (w := w); [| |exact H].
  - intros j. cbn [rgb]. rewrite !nth_overflow; cbn [List.length]; auto; lia.
  - intros r g b a l IH j. destruct j as [|[|[|j]]]; [reflexivity|reflexivity|reflexivity|].
    change (S (S (S j))) with (3 + j)%nat. rewrite i3_step. cbn [rgb nth Nat.add]. apply IH.
Qed.

Lemma alphas_nth : forall w row, quad row w -> forall j, nth j (alphas row) 0 = nth (4 * j + 3) row 0.
Proof.
  intros w row H. pattern row. apply (quad_ind _) with (w := w); [| |exact H].
  - intros j. cbn [alphas]. rewrite !nth_overflow; cbn [List.length]; auto; lia.
  - intros r g b a l IH j. destruct j as [|j]; [reflexivity|].
    replace (4 * S j + 3)%nat with (4 + (4 * j + 3))%nat by lia. cbn [alphas nth Nat.add]. rewrite IH. f_equal.
Qed.

Lemma rgb_len : forall w row, quad row w -> List.length (rgb row) = (3 * w)%nat.
Proof.
  induction w as [|w IH]; intros row H; unfold quad in *.
  - destruct row; [auto|discriminate].
  - destruct row as [|r [|g [|b [|a l]]]]; cbn [List.length] in H; try lia. cbn [rgb List.length]. rewrite IH; lia.
Qed.

Lemma alphas_len : forall w row, quad row w -> List.length (alphas row) = w.
Proof.
  induction w as [|w IH]; intros row H; unfold quad in *.
  - destruct row; [auto|discriminate].
  - destruct row as [|r [|g [|b [|a l]]]]; cbn [List.length] in H; try lia. cbn [alphas List.length]. rewrite IH; lia.
Qed.

Lemma split4_ok : forall w row, quad row w -> split4 row = Ok (rgb row, alphas row).
Proof.
  intros w row H. pattern row. apply (quad_ind _) with (w := w); [| |exact H]; [reflexivity|].
  intros r g b a l IH. cbn [split4]. rewrite IH. reflexivity.
Qed.

Lemma rgb_left : forall w row, quad row w -> forall j, left 3 (rgb row) j = left 4 row (i3 j).
Proof.
  intros w row H j. unfold left. destruct j as [|[|[|j]]]; [reflexivity|reflexivity|reflexivity|].
  change (S (S (S j))) with (3 + j)%nat. rewrite i3_step.
  replace (3 + j <? 3)%nat with false by (symmetry; apply Nat.ltb_ge; lia).
  replace (4 + i3 j <? 4)%nat with false by (symmetry; apply Nat.ltb_ge; lia).
  replace (3 + j - 3)%nat with j by lia. replace (4 + i3 j - 4)%nat with (i3 j) by lia. eapply rgb_nth; eauto.
Qed.

Lemma alphas_left : forall w row, quad row w -> forall j, left 1 (alphas row) j = left 4 row (4 * j + 3).
Proof.
  intros w row H j. unfold left. destruct j as [|j]; [reflexivity|].
  replace (S j <? 1)%nat with false by (symmetry; apply Nat.ltb_ge; lia).
  replace (4 * S j + 3 <? 4)%nat with false by (symmetry; apply Nat.ltb_ge; lia).
  replace (S j - 1)%nat with j by lia. replace (4 * S j + 3 - 4)%nat with (4 * j + 3)%nat by lia. eapply alphas_nth; eauto.
Qed.

Lemma i3_lt : forall j w, (j < 3 * w)%nat -> (i3 j < 4 * w)%nat.
Proof.
  intros j w H. unfold i3. pose proof (Nat.div_mod j 3 ltac:(lia)). pose proof (Nat.mod_upper_bound j 3 ltac:(lia)).
  assert (j / 3 < w)%nat by (apply Nat.div_lt_upper_bound; lia). lia.
Qed.

Lemma unfiltered_rgb : forall w ft above line out, (exists w', quad above w') -> quad line w ->
  unfiltered 4 ft above line out -> unfiltered 3 ft (rgb above) (rgb line) (rgb out).
Proof.
  intros w ft above line out (w' & Ha) Hl (L & U). assert (Ho : quad out w) by (unfold quad in *; congruence).
  split; [rewrite !(rgb_len w) by auto; reflexivity|]. intros j Hj. rewrite (rgb_len w) in Hj by auto.
  rewrite (rgb_nth w out), (rgb_nth w line), (rgb_nth w' above), (rgb_left w out), (rgb_left w' above) by auto.
  apply U. unfold quad in Hl. rewrite Hl. apply i3_lt. auto.
Qed.

Lemma unfiltered_alphas : forall w ft above line out, (exists w', quad above w') -> quad line w ->
  unfiltered 4 ft above line out -> unfiltered 1 ft (alphas above) (alphas line) (alphas out).
Proof.
  intros w ft above line out (w' & Ha) Hl (L & U). assert (Ho : quad out w) by (unfold quad in *; congruence).
  split; [rewrite !(alphas_len w) by auto; reflexivity|]. intros j Hj. rewrite (alphas_len w) in Hj by auto.
  rewrite (alphas_nth w out), (alphas_nth w line), (alphas_nth w' above), (alphas_left w out), (alphas_left w' above) by auto.
  apply U. unfold quad in Hl. rewrite Hl. lia.
Qed.

Lemma at_app : forall A (a : list A) x b i, i = Z.of_nat (List.length a) -> at_ (a ++ x :: b) i = Ok x.
Proof.
  intros A a x b i ->. unfold at_. destruct (Z.ltb_spec (Z.of_nat (List.length a)) 0); [lia|].
  rewrite Nat2Z.id, nth_error_app2, Nat.sub_diag by lia. reflexivity.
Qed.

Lemma rows_split : forall w beyond extra above z rws, image 4 w above z rws -> (exists w', quad above w') ->
  forall pre i, blen pre = (1 + 4 * Z.of_nat w) * i ->
  exists color alpha, rows split4 (List.length rws) (4 * Z.of_nat w) i (pre ++ z ++ extra) beyond = Ok (color, alpha) /\
    image 3 w (rgb above) color (map rgb rws) /\ image 1 w (alphas above) alpha (map alphas rws).
Proof.
  intros w beyond extra above z rws H. induction H as [above|above ft line z out rws F L U I IH]; intros Q pre i P.
  - exists [], []. repeat split; constructor.
  - destruct (IH (ex_intro _ w (eq_trans (proj1 U) L)) (pre ++ ft :: line) (i + 1)) as (color & alpha & E & C & A).
    { rewrite blen_app, P, blen_cons. unfold blen. rewrite L. lia. }
    exists (ft :: rgb line ++ color), (ft :: alphas line ++ alpha). split.
    + cbn [List.length rows]. rewrite <- P.
      replace (pre ++ (ft :: line ++ z) ++ extra) with (pre ++ ft :: line ++ z ++ extra) by (cbn [app]; rewrite <- !app_assoc; reflexivity).
      rewrite at_app by reflexivity. cbn [bind].
      replace ((pre ++ ft :: line ++ z ++ extra) ++ beyond) with ((pre ++ [ft]) ++ line ++ z ++ extra ++ beyond)
        by (rewrite <- !app_assoc; cbn [app]; rewrite <- !app_assoc; reflexivity).
      rewrite slice_app.
      2:{ rewrite blen_app. reflexivity. }
      2:{ rewrite blen_app. unfold blen at 3 4. rewrite L. cbn [List.length]. lia. }
      cbn [bind]. rewrite (split4_ok w) by exact L. cbn [bind].
      replace ((pre ++ ft :: line ++ z ++ extra)) with ((pre ++ ft :: line) ++ z ++ extra)
        by (rewrite <- app_assoc; reflexivity).
      rewrite E. cbn [bind]. reflexivity.
    + cbn [map]. split; constructor; auto.
      * rewrite (rgb_len w) by exact L. lia.
      * eapply unfiltered_rgb; eauto.
      * rewrite (alphas_len w) by exact L. lia.
      * eapply unfiltered_alphas; eauto.
Qed.

(** ** Numbers *)
Lemma be_word32 : forall n, 0 <= n < 2 ^ 32 -> be_word (be32 n) = n.
Proof.
  intros n H. unfold be_word, be32. cbn [fold_left]. rewrite Z.mul_0_r, Z.add_0_l.
  assert (E : forall k, 0 < k -> n / (k * 256) = n / k / 256) by (intros; rewrite Z.div_div by lia; reflexivity).
  change 16777216 with (65536 * 256). change 65536 with (256 * 256). rewrite !E by lia.
  rewrite (Z.mod_small (n / 256 / 256 / 256)).
  2:{ rewrite <- !E by lia. split; [apply Z.div_pos; lia|]. apply Z.div_lt_upper_bound; lia. }
  pose proof (Z.div_mod n 256 ltac:(lia)). pose proof (Z.div_mod (n / 256) 256 ltac:(lia)). pose proof (Z.div_mod (n / 256 / 256) 256 ltac:(lia)). lia.
Qed.

Lemma read_app : forall d pre x rest pos n, d = pre ++ x ++ rest -> pos = blen pre -> n = blen x -> x ++ rest <> [] ->
  readBytes d pos n = Ok (x, blen (pre ++ x)).
Proof.
  intros d pre x rest pos n -> -> -> N. unfold readBytes. pose proof (blen_nonneg x). pose proof (blen_nonneg pre).
  destruct (Z.ltb_spec (blen x) 0); [lia|].
  assert (0 < blen (x ++ rest)). { destruct (x ++ rest) as [|q t]; [congruence|]. rewrite blen_cons. pose proof (blen_nonneg t). lia. }
  destruct (Z.leb_spec (blen (pre ++ x ++ rest)) (blen pre)); [rewrite (blen_app pre) in *; lia|].
  unfold blen. rewrite !Nat2Z.id. rewrite skipn_app, skipn_all, Nat.sub_diag. rewrite skipn_O. cbn [app].
  rewrite firstn_app, firstn_all, Nat.sub_diag, firstn_O, app_nil_r, Nat.sub_diag. cbn [repeat]. rewrite app_nil_r.
  rewrite app_length. do 2 f_equal. lia.
Qed.

Lemma be32_len : forall n, blen (be32 n) = 4. Proof. reflexivity. Qed.

Lemma int_app : forall d pre v rest pos, d = pre ++ be32 v ++ rest -> pos = blen pre -> 0 <= v < 2 ^ 32 ->
  readInt d pos = Ok (to_int v, blen (pre ++ be32 v)).
Proof.
  intros d pre v rest pos E P H. unfold readInt. rewrite (read_app d pre (be32 v) rest pos 4 E P eq_refl) by discriminate.
  cbn [bind]. rewrite be_word32 by auto. reflexivity.
Qed.

(** ** Chunks *)
Lemma seek_app : forall pre x, seek (blen pre) (blen x) = Ok (blen (pre ++ x)).
Proof.
  intros. unfold seek. pose proof (blen_nonneg pre). pose proof (blen_nonneg x). rewrite blen_app.
  destruct (Z.ltb_spec (blen pre + blen x) 0); [lia|]. reflexivity.
Qed.

Lemma chunk_step : forall c ct, chunk_read ct c -> forall d pre rest st, d = pre ++ chunk_bytes c ++ rest -> rest <> [] ->
  exists st', (forall f, chunks (S f) d ct (blen pre) st = chunks f d ct (blen (pre ++ chunk_bytes c)) st') /\
    cdata st' = cdata st ++ (if is_type (B"IDAT") c then cbody c else []) /\
    cpal st' = (if is_type (B"PLTE") c then cbody c else cpal st).
Proof.
  intros c ct ((T4 & C4) & Hn & NE & TR0 & TR2) d pre rest st E NR. unfold chunk_bytes in E. set (n := blen (cbody c)) in *.
  assert (R1 : readInt d (blen pre) = Ok (n, blen (pre ++ be32 n))).
  { rewrite (int_app d pre n (ctype c ++ cbody c ++ ccrc c ++ rest)) by (try lia; rewrite E, <- !app_assoc; reflexivity).
    unfold to_int. destruct (Z.leb_spec 32768 n); [lia|reflexivity]. }
  assert (T4' : 4 = blen (ctype c)) by (unfold blen; rewrite T4; reflexivity).
  assert (C4' : 4 = blen (ccrc c)) by (unfold blen; rewrite C4; reflexivity).
  assert (R2 : readBytes d (blen (pre ++ be32 n)) 4 = Ok (ctype c, blen ((pre ++ be32 n) ++ ctype c))).
  { apply (read_app d _ _ (cbody c ++ ccrc c ++ rest)); auto; [rewrite E, <- !app_assoc; reflexivity|].
    destruct (ctype c); [discriminate|discriminate]. }
  assert (R3 : readBytes d (blen ((pre ++ be32 n) ++ ctype c)) n = Ok (cbody c, blen (((pre ++ be32 n) ++ ctype c) ++ cbody c))).
  { apply (read_app d _ _ (ccrc c ++ rest)); auto; [rewrite E, <- !app_assoc; reflexivity|].
    destruct (ccrc c); [discriminate|]. destruct (cbody c); discriminate. }
  assert (R4 : seek (blen (((pre ++ be32 n) ++ ctype c) ++ cbody c)) 4 = Ok (blen (pre ++ chunk_bytes c))).
  { rewrite C4', seek_app. unfold chunk_bytes. rewrite <- !app_assoc. reflexivity. }
  assert (R5 : seek (blen ((pre ++ be32 n) ++ ctype c)) (n + 4) = Ok (blen (pre ++ chunk_bytes c))).
  { replace (n + 4) with (blen (cbody c ++ ccrc c)) by (rewrite blen_app; unfold n; lia).
    rewrite seek_app. unfold chunk_bytes. rewrite <- !app_assoc. reflexivity. }
  assert (TT : ctype c = B"tRNS" -> exists t, readTrns ct (cbody c) (ctrns st) = Ok t).
  { intros Ht. unfold readTrns. destruct (Z.eqb_spec ct 0) as [Z0|].
    - specialize (TR0 Ht Z0). fold n in TR0. unfold n, blen in TR0. destruct (cbody c) as [|x [|y l]]; cbn [List.length] in TR0; try lia. eexists. reflexivity.
    - destruct (Z.eqb_spec ct 2) as [Z2|].
      + specialize (TR2 Ht Z2). fold n in TR2. unfold n, blen in TR2.
        destruct (cbody c) as [|x1 [|x2 [|x3 [|x4 [|x5 [|x6 l]]]]]]; cbn [List.length] in TR2; try lia. eexists. reflexivity.
      + destruct (index [0] (cbody c)); eauto. }
  assert (N0 : n <=? 0 = false) by lia.
  assert (NEb : beqb (ctype c) (B"IEND") = false) by (apply beqb_neq; auto).
  unfold is_type.
  destruct (beqb (ctype c) (B"PLTE")) eqn:B1.
  - apply beqb_eq in B1. rewrite B1 in *. exists (mkCh (cbody c) (ctrns st) (cdata st)). split; [|cbn; rewrite app_nil_r; auto].
    intros f. cbn [chunks]. rewrite R1. cbn [bind]. rewrite R2. cbn [bind]. change (beqb (B"PLTE") (B"IEND")) with false. cbn iota.
    rewrite beqb_refl. rewrite R3. cbn [bind]. rewrite R4. cbn [bind]. rewrite N0. reflexivity.
  - destruct (beqb (ctype c) (B"tRNS")) eqn:B2.
    + apply beqb_eq in B2. destruct (TT B2) as (t & Et). rewrite B2 in *. exists (mkCh (cpal st) t (cdata st)). split; [|cbn; rewrite app_nil_r; auto].
      intros f. cbn [chunks]. rewrite R1. cbn [bind]. rewrite R2. cbn [bind]. change (beqb (B"tRNS") (B"IEND")) with false. cbn iota.
      rewrite B1. cbn iota. rewrite beqb_refl. rewrite R3. cbn [bind]. rewrite Et. cbn [bind]. rewrite R4. cbn [bind]. rewrite N0. reflexivity.
    + destruct (beqb (ctype c) (B"IDAT")) eqn:B3.
      * exists (mkCh (cpal st) (ctrns st) (cdata st ++ cbody c)). split; [|cbn; auto].
        intros f. cbn [chunks]. rewrite R1. cbn [bind]. rewrite R2. cbn [bind]. rewrite NEb, B1, B2, B3, R3. cbn [bind]. rewrite R4. cbn [bind]. rewrite N0. reflexivity.
      * exists st. split; [|rewrite app_nil_r; auto].
        intros f. cbn [chunks]. rewrite R1. cbn [bind]. rewrite R2. cbn [bind]. rewrite NEb, B1, B2, B3, R5. cbn [bind]. rewrite N0. reflexivity.
Qed.

Lemma chunks_run : forall ct cs, Forall (chunk_read ct) cs -> forall d pre rest st, d = pre ++ flat_map chunk_bytes cs ++ rest -> rest <> [] ->
  exists st', (forall f, chunks (List.length cs + f) d ct (blen pre) st = chunks f d ct (blen (pre ++ flat_map chunk_bytes cs)) st') /\
    cdata st' = cdata st ++ image_data cs /\
    cpal st' = fold_left (fun p c => if is_type (B"PLTE") c then cbody c else p) cs (cpal st).
Proof.
  intros ct cs H. induction H as [|c cs Hc H IH]; intros d pre rest st E NR.
  - exists st. cbn [flat_map List.length Nat.add]. unfold image_data. cbn [filter flat_map]. rewrite !app_nil_r. auto.
  - cbn [flat_map] in E. destruct (chunk_step c ct Hc d pre (flat_map chunk_bytes cs ++ rest) st) as (st1 & S1 & D1 & P1).
    { rewrite E, <- !app_assoc. reflexivity. }
    { destruct rest; [congruence|]. destruct (flat_map chunk_bytes cs); discriminate. }
    destruct (IH d (pre ++ chunk_bytes c) rest st1) as (st2 & S2 & D2 & P2); [rewrite E, <- !app_assoc; reflexivity|auto|].
    exists st2. split; [|split].
    + intros f. cbn [List.length Nat.add]. rewrite S1, S2. cbn [flat_map]. rewrite <- app_assoc. reflexivity.
    + rewrite D2, D1. unfold image_data. cbn [filter]. destruct (is_type (B"IDAT") c); cbn [flat_map]; rewrite <- !app_assoc; reflexivity.
    + rewrite P2, P1. reflexivity.
Qed.

Lemma chunks_end : forall f d ct pre rest st, d = pre ++ be32 0 ++ B"IEND" ++ rest -> chunks (S f) d ct (blen pre) st = Ok st.
Proof.
  intros f d ct pre rest st E. cbn [chunks]. rewrite (int_app d pre 0 (B"IEND" ++ rest)) by (auto; lia). cbn [bind].
  rewrite (read_app d (pre ++ be32 0) (B"IEND") rest); [|rewrite E, <- !app_assoc; reflexivity|reflexivity|reflexivity|discriminate].
  cbn [bind]. rewrite beqb_refl. reflexivity.
Qed.

Lemma flat_len : forall cs, (List.length cs <= List.length (flat_map chunk_bytes cs))%nat.
Proof. induction cs as [|c cs IH]; cbn [flat_map List.length]; [lia|]. rewrite app_length. unfold chunk_bytes at 1. rewrite app_length. cbn [List.length be32]. lia. Qed.

(** The header, and what follows it: the rest of [paesePng]. *)
Definition color_space (ct : Z) : bytes :=
  if (ct =? 0) || (ct =? 4) then B"DeviceGray" else if (ct =? 2) || (ct =? 6) then B"DeviceRGB" else B"Indexed".
Definition known (ct : Z) : Prop := ct = 0 \/ ct = 2 \/ ct = 3 \/ ct = 4 \/ ct = 6.

Definition tail_of inflate compress beyond (w h depth ct : Z) (st : chunkSt) : res imgInfo :=
  let cs := color_space ct in
  if beqb cs (B"Indexed") && beqb (trim_space (cpal st)) [] then Err EOther else
  let colors := if beqb cs (B"DeviceRGB") then 3 else 1 in
  let parms := B"/Predictor 15 /Colors  " ++ itoa colors ++ B" /BitsPerComponent " ++ itoa depth ++ B" /Columns " ++ itoa w in
  let info smask data := mkImg w h cs (itoa depth) (B"FlateDecode") parms (ctrns st) smask 0 (cpal st) data in
  if 4 <=? ct then
    do z <- inflate (cdata st);
    if ct =? 4 then
      do _ <- rows split2 (Z.to_nat h) (2 * w) 0 z beyond;
      Ok (info [] [])
    else
      do (color, alpha) <- rows split4 (Z.to_nat h) (4 * w) 0 z beyond;
      Ok (info (compress alpha) (compress color))
  else Ok (info [] (cdata st)).

Definition head_bytes (w h depth ct : Z) (crc : bytes) : bytes :=
  signature ++ be32 13 ++ B"IHDR" ++ be32 w ++ be32 h ++ [depth; ct; 0; 0; 0] ++ crc.

Lemma header_read : forall inflate compress beyond w h depth ct crc rest, 0 <= w < 2 ^ 32 -> 0 <= h < 2 ^ 32 -> depth <= 8 -> known ct ->
  List.length crc = 4%nat ->
  paesePng inflate compress beyond (head_bytes w h depth ct crc ++ rest) =
  bind (chunks (S (List.length (head_bytes w h depth ct crc ++ rest))) (head_bytes w h depth ct crc ++ rest) ct
        (blen (head_bytes w h depth ct crc)) (mkCh [] [] []))
       (tail_of inflate compress beyond (to_int w) (to_int h) depth ct).
Proof.
  intros inflate compress beyond w h depth ct crc rest Hw Hh Hd Hc C4. set (d := head_bytes w h depth ct crc ++ rest).
  assert (E : d = signature ++ be32 13 ++ B"IHDR" ++ be32 w ++ be32 h ++ [depth] ++ [ct] ++ [0] ++ [0] ++ [0] ++ crc ++ rest).
  { unfold d, head_bytes. rewrite <- !app_assoc. reflexivity. }
  assert (Ne : forall (x : Z) l, [x] ++ l <> []) by discriminate.
  unfold paesePng.
  rewrite (read_app d [] signature (be32 13 ++ B"IHDR" ++ be32 w ++ be32 h ++ [depth] ++ [ct] ++ [0] ++ [0] ++ [0] ++ crc ++ rest)); [|exact E|reflexivity|reflexivity|discriminate].
  cbn [bind app]. rewrite (proj2 (beqb_eq signature pngMagicNumber) eq_refl). cbn [negb].
  change 4 with (blen (be32 13)) at 1. rewrite seek_app. cbn [bind].
  rewrite (read_app d (signature ++ be32 13) (B"IHDR") (be32 w ++ be32 h ++ [depth] ++ [ct] ++ [0] ++ [0] ++ [0] ++ crc ++ rest));
    [|rewrite E, <- !app_assoc; reflexivity|reflexivity|reflexivity|discriminate].
  cbn [bind]. rewrite beqb_refl. cbn [negb].
  rewrite (int_app d ((signature ++ be32 13) ++ B"IHDR") w (be32 h ++ [depth] ++ [ct] ++ [0] ++ [0] ++ [0] ++ crc ++ rest));
    [|rewrite E, <- !app_assoc; reflexivity|reflexivity|auto].
  cbn [bind].
  rewrite (int_app d (((signature ++ be32 13) ++ B"IHDR") ++ be32 w) h ([depth] ++ [ct] ++ [0] ++ [0] ++ [0] ++ crc ++ rest));
    [|rewrite E, <- !app_assoc; reflexivity|reflexivity|auto].
  cbn [bind].
  set (p1 := (((signature ++ be32 13) ++ B"IHDR") ++ be32 w) ++ be32 h).
  rewrite (read_app d p1 [depth] ([ct] ++ [0] ++ [0] ++ [0] ++ crc ++ rest)); [|unfold p1; rewrite E, <- !app_assoc; reflexivity|reflexivity|reflexivity|apply Ne].
  cbn [bind]. change (at_ [depth] 0) with (@Ok Z depth). cbn [bind].
  destruct (Z.ltb_spec 8 depth); [lia|].
  rewrite (read_app d (p1 ++ [depth]) [ct] ([0] ++ [0] ++ [0] ++ crc ++ rest)); [|unfold p1; rewrite E, <- !app_assoc; reflexivity|reflexivity|reflexivity|apply Ne].
  cbn [bind]. change (at_ [ct] 0) with (@Ok Z ct). cbn [bind].
  assert (CS : (if (ct =? 0) || (ct =? 4) then Ok (B"DeviceGray") else if (ct =? 2) || (ct =? 6) then Ok (B"DeviceRGB")
      else if ct =? 3 then Ok (B"Indexed") else Err EOther) = Ok (color_space ct)).
  { unfold color_space. destruct Hc as [->|[->|[->|[->| ->]]]]; reflexivity. }
  rewrite CS. cbn [bind].
  rewrite (read_app d ((p1 ++ [depth]) ++ [ct]) [0] ([0] ++ [0] ++ crc ++ rest)); [|unfold p1; rewrite E, <- !app_assoc; reflexivity|reflexivity|reflexivity|apply Ne].
  cbn [bind]. change (at_ [0] 0) with (@Ok Z 0). cbn [bind Z.eqb negb].
  rewrite (read_app d (((p1 ++ [depth]) ++ [ct]) ++ [0]) [0] ([0] ++ crc ++ rest)); [|unfold p1; rewrite E, <- !app_assoc; reflexivity|reflexivity|reflexivity|apply Ne].
  cbn [bind]. change (at_ [0] 0) with (@Ok Z 0). cbn [bind Z.eqb negb].
  rewrite (read_app d ((((p1 ++ [depth]) ++ [ct]) ++ [0]) ++ [0]) [0] (crc ++ rest)); [|unfold p1; rewrite E, <- !app_assoc; reflexivity|reflexivity|reflexivity|apply Ne].
  cbn [bind]. change (at_ [0] 0) with (@Ok Z 0). cbn [bind Z.eqb negb].
  replace 4 with (blen crc) at 1 by (unfold blen; rewrite C4; reflexivity). rewrite seek_app. cbn [bind].
  replace ((((((p1 ++ [depth]) ++ [ct]) ++ [0]) ++ [0]) ++ [0]) ++ crc) with (head_bytes w h depth ct crc)
    by (unfold p1, head_bytes; rewrite <- !app_assoc; reflexivity).
  reflexivity.
Qed.

Lemma file_bytes : forall w h depth ct crc cs rest,
  png_file (header w h depth ct crc) cs rest = head_bytes w h depth ct crc ++ flat_map chunk_bytes cs ++ be32 0 ++ B"IEND" ++ rest.
Proof. intros. unfold png_file, header, chunk_bytes at 1, head_bytes. cbn [ctype cbody ccrc]. rewrite <- !app_assoc. reflexivity. Qed.

Theorem png_read : forall inflate compress beyond w h depth ct crc cs rest, 0 <= w < 32768 -> 0 <= h < 32768 -> depth <= 8 -> known ct ->
  List.length crc = 4%nat -> Forall (chunk_read ct) cs ->
  exists st, cdata st = image_data cs /\ cpal st = palette cs /\
    paesePng inflate compress beyond (png_file (header w h depth ct crc) cs rest) = tail_of inflate compress beyond w h depth ct st.
Proof.
  intros inflate compress beyond w h depth ct crc cs rest Hw Hh Hd Hc C4 Hcs.
  rewrite file_bytes. rewrite header_read by (auto; lia).
  set (d := head_bytes w h depth ct crc ++ flat_map chunk_bytes cs ++ be32 0 ++ B"IEND" ++ rest).
  destruct (chunks_run ct cs Hcs d (head_bytes w h depth ct crc) (be32 0 ++ B"IEND" ++ rest) (mkCh [] [] [])) as (st & S1 & D1 & P1); [reflexivity|discriminate|].
  exists st. split; [exact D1|]. split; [exact P1|].
  assert (L : exists f, S (List.length d) = (List.length cs + S f)%nat).
  { exists (List.length d - List.length cs)%nat. unfold d. rewrite !app_length. pose proof (flat_len cs). lia. }
  destruct L as (f & L). rewrite L, S1. rewrite (chunks_end f d ct _ rest) by (unfold d; rewrite <- !app_assoc; reflexivity).
  cbn [bind]. unfold to_int. destruct (Z.leb_spec 32768 w); [lia|]. destruct (Z.leb_spec 32768 h); [lia|]. reflexivity.
Qed.

(** Images without alpha. *)
Theorem png_opaque : forall inflate compress beyond w h depth ct crc cs rest, 0 <= w < 32768 -> 0 <= h < 32768 -> depth <= 8 ->
  ct = 0 \/ ct = 2 \/ ct = 3 -> (ct = 3 -> trim_space (palette cs) <> []) ->
  List.length crc = 4%nat -> Forall (chunk_read ct) cs ->
  exists info, paesePng inflate compress beyond (png_file (header w h depth ct crc) cs rest) = Ok info /\
    iw info = w /\ ih info = h /\ bitsPer info = itoa depth /\ idata info = image_data cs /\ pal info = palette cs /\ smask info = [] /\
    colspace info = (if ct =? 0 then B"DeviceGray" else if ct =? 2 then B"DeviceRGB" else B"Indexed") /\ ifilter info = B"FlateDecode" /\
    parms info = B"/Predictor 15 /Colors  " ++ itoa (if ct =? 2 then 3 else 1) ++ B" /BitsPerComponent " ++ itoa depth ++ B" /Columns " ++ itoa w.
Proof.
  intros inflate compress beyond w h depth ct crc cs rest Hw Hh Hd Hc Hp C4 Hcs.
  destruct (png_read inflate compress beyond w h depth ct crc cs rest) as (st & D & P & E); auto; [unfold known; lia|].
  rewrite E. unfold tail_of.
  destruct Hc as [->|[->| ->]]; cbn [Z.eqb Pos.eqb orb color_space Z.leb Z.compare Pos.compare Pos.compare_cont beqb andb].
  - unfold color_space. cbn [Z.eqb orb]. change (beqb (B"DeviceGray") (B"Indexed")) with false. cbn [andb].
    eexists. split; [reflexivity|]. cbn. auto 10.
  - unfold color_space. cbn [Z.eqb Pos.eqb orb]. change (beqb (B"DeviceRGB") (B"Indexed")) with false. cbn [andb].
    eexists. split; [reflexivity|]. cbn. auto 10.
  - unfold color_space. cbn [Z.eqb Pos.eqb orb]. rewrite beqb_refl. cbn [andb]. rewrite P.
    destruct (beqb_spec (trim_space (palette cs)) []) as [X|X]; [exfalso; apply Hp; auto|].
    eexists. split; [reflexivity|]. cbn. auto 10.
Qed.

(** RGBA images. *)
Theorem png_rgba : forall inflate compress beyond w h crc cs rest z extra rws, Z.of_nat h < 32768 -> Z.of_nat w < 32768 ->
  List.length crc = 4%nat -> Forall (chunk_read 6) cs ->
  inflate (image_data cs) = Ok (z ++ extra) -> image 4 w [] z rws -> List.length rws = h ->
  exists info color alpha, paesePng inflate compress beyond (png_file (header (Z.of_nat w) (Z.of_nat h) 8 6 crc) cs rest) = Ok info /\
    iw info = Z.of_nat w /\ ih info = Z.of_nat h /\ colspace info = B"DeviceRGB" /\ bitsPer info = B"8" /\
    idata info = compress color /\ smask info = compress alpha /\
    image 3 w [] color (map rgb rws) /\ image 1 w [] alpha (map alphas rws).
Proof.
  intros inflate compress beyond w h crc cs rest z extra rws Hh Hw C4 Hcs I Im L.
  destruct (png_read inflate compress beyond (Z.of_nat w) (Z.of_nat h) 8 6 crc cs rest) as (st & D & P & E); auto; try lia; [unfold known; lia|].
  rewrite E. unfold tail_of, color_space. cbn [Z.eqb Pos.eqb orb]. change (beqb (B"DeviceRGB") (B"Indexed")) with false. cbn [andb].
  change (4 <=? 6) with true. cbn iota. rewrite D, I. cbn [bind].
  destruct (rows_split w beyond extra [] z rws Im) with (pre := @nil Z) (i := 0) as (color & alpha & R & C & A).
  { exists 0%nat. reflexivity. }
  { rewrite Z.mul_0_r; reflexivity. }
  rewrite Nat2Z.id, <- L. cbn [app] in R. rewrite R. cbn [bind].
  eexists _, color, alpha. split; [reflexivity|]. cbn. auto 10.
Qed.

(** Grey images with alpha: nothing is kept. *)
Theorem png_grey_alpha : forall inflate compress beyond w h depth crc rest info, 0 <= w < 2 ^ 32 -> 0 <= h < 2 ^ 32 -> depth <= 8 ->
  List.length crc = 4%nat ->
  paesePng inflate compress beyond (head_bytes w h depth 4 crc ++ rest) = Ok info -> idata info = [] /\ smask info = [].
Proof.
  intros inflate compress beyond w h depth crc rest info Hw Hh Hd C4 H. rewrite header_read in H by (auto; unfold known; lia).
  apply bind_ok in H. destruct H as (st & _ & H). unfold tail_of, color_space in H. cbn [Z.eqb Pos.eqb orb] in H.
  change (beqb (B"DeviceGray") (B"Indexed")) with false in H. cbn [andb] in H. change (4 <=? 4) with true in H. cbn iota in H.
  apply bind_ok in H. destruct H as (z & _ & H). apply bind_ok in H. destruct H as (y & _ & H). inversion H. auto.
Qed.

(** A chunk of image data of 32768 to 65535 bytes. *)
Theorem png_long_chunk : forall inflate compress beyond w h depth ct crc cs c rest, 0 <= w < 2 ^ 32 -> 0 <= h < 2 ^ 32 -> depth <= 8 -> known ct ->
  List.length crc = 4%nat -> Forall (chunk_read ct) cs ->
  chunk_ok c -> ctype c = B"IDAT" -> 32768 <= blen (cbody c) < 65536 ->
  paesePng inflate compress beyond (png_file (header w h depth ct crc) (cs ++ [c]) rest) = Panic.
Proof.
  intros inflate compress beyond w h depth ct crc cs c rest Hw Hh Hd Hc C4 Hcs (T4 & K4) Ht Hn.
  rewrite file_bytes. rewrite header_read by auto. rewrite flat_map_app. cbn [flat_map]. rewrite app_nil_r.
  set (d := head_bytes w h depth ct crc ++ (flat_map chunk_bytes cs ++ chunk_bytes c) ++ be32 0 ++ B"IEND" ++ rest).
  destruct (chunks_run ct cs Hcs d (head_bytes w h depth ct crc) (chunk_bytes c ++ be32 0 ++ B"IEND" ++ rest) (mkCh [] [] [])) as (st & S1 & D1 & P1);
    [unfold d; rewrite <- !app_assoc; reflexivity|discriminate|].
  assert (L : exists f, S (List.length d) = (List.length cs + S f)%nat).
  { exists (List.length d - List.length cs)%nat. unfold d. rewrite !app_length. pose proof (flat_len cs). lia. }
  destruct L as (f & L). rewrite L, S1. cbn [chunks].
  set (pre := head_bytes w h depth ct crc ++ flat_map chunk_bytes cs). set (n := blen (cbody c)) in *.
  assert (E : d = pre ++ be32 n ++ ctype c ++ cbody c ++ ccrc c ++ be32 0 ++ B"IEND" ++ rest).
  { unfold d, pre, chunk_bytes at 2. rewrite <- !app_assoc. reflexivity. }
  rewrite (int_app d pre n _ _ E eq_refl) by lia. cbn [bind].
  rewrite (read_app d (pre ++ be32 n) (ctype c) (cbody c ++ ccrc c ++ be32 0 ++ B"IEND" ++ rest));
    [|rewrite E, <- !app_assoc; reflexivity|reflexivity|unfold blen; rewrite T4; reflexivity|rewrite Ht; discriminate].
  cbn [bind]. rewrite Ht. change (beqb (B"IDAT") (B"IEND")) with false. change (beqb (B"IDAT") (B"PLTE")) with false.
  change (beqb (B"IDAT") (B"tRNS")) with false. rewrite beqb_refl. cbn iota.
  unfold to_int. destruct (Z.leb_spec 32768 n); [|lia]. unfold readBytes at 1. destruct (Z.ltb_spec (n - 65536) 0); [|lia]. reflexivity.
Qed.

(** Every image without alpha is read to the end or refused: the loop over the
    chunks ends. *)
Lemma read_adv : forall d pos n b pos', 0 <= pos -> 0 < n -> readBytes d pos n = Ok (b, pos') -> pos < blen d /\ pos < pos' <= blen d.
Proof.
  intros d pos n b pos' Hp Hn H. unfold readBytes in H. destruct (Z.ltb_spec n 0); [lia|]. destruct (Z.leb_spec (blen d) pos); [discriminate|].
  inversion H. subst. clear H. unfold blen in *. rewrite firstn_length, skipn_length. lia.
Qed.

Lemma read_mono : forall d pos n b pos', 0 <= pos -> readBytes d pos n = Ok (b, pos') -> pos <= pos'.
Proof.
  intros d pos n b pos' Hp H. unfold readBytes in H. destruct (Z.ltb_spec n 0); [discriminate|]. destruct (Z.leb_spec (blen d) pos); [discriminate|].
  inversion H. unfold blen. lia.
Qed.

Lemma chunks_total : forall f d ct pos st, 0 <= pos -> blen d - pos < Z.of_nat f -> (0 < f)%nat -> chunks f d ct pos st <> Diverge.
Proof.
  induction f as [|f IH]; intros d ct pos st Hp Hf H0; [lia|]. cbn [chunks]. unfold readInt.
  destruct (readBytes d pos 4) as [(b, p1)|e| |] eqn:R1; cbn [bind]; try discriminate.
  2:{ unfold readBytes in R1. destruct (4 <? 0); [discriminate|]. destruct (blen d <=? pos); discriminate. }
  apply read_adv in R1; [|lia|lia]. set (n := to_int (be_word b)). clearbody n.
  destruct (readBytes d p1 4) as [(typ, p2)|e| |] eqn:R2; cbn [bind]; try discriminate.
  2:{ unfold readBytes in R2. destruct (4 <? 0); [discriminate|]. destruct (blen d <=? p1); discriminate. }
  apply read_adv in R2; [|lia|lia]. destruct (beqb typ (B"IEND")); [discriminate|].
  assert (RD : forall x, readBytes d x n <> Diverge).
  { intros x X. unfold readBytes in X. destruct (n <? 0); [discriminate|]. destruct (blen d <=? x); discriminate. }
  assert (SD : forall x y, seek x y <> Diverge) by (intros x y X; unfold seek in X; destruct (x + y <? 0); discriminate).
  assert (TD : forall t old, readTrns ct t old <> Diverge).
  { intros t old X. unfold readTrns in X. destruct (ct =? 0).
    - destruct (at_ t 1) eqn:A1; cbn [bind] in X; try discriminate. unfold at_ in A1. cbn in A1. destruct (nth_error t _); discriminate.
    - destruct (ct =? 2); [|destruct (index [0] t); discriminate].
      destruct (at_ t 1) eqn:A1; cbn [bind] in X; try discriminate; [|unfold at_ in A1; cbn in A1; destruct (nth_error t _); discriminate].
      destruct (at_ t 3) eqn:A3; cbn [bind] in X; try discriminate; [|unfold at_ in A3; cbn in A3; destruct (nth_error t _); discriminate].
      destruct (at_ t 5) eqn:A5; cbn [bind] in X; try discriminate. unfold at_ in A5; cbn in A5; destruct (nth_error t _); discriminate. }
  assert (Fin : forall p s, p2 <= p -> 0 <= p -> (if n <=? 0 then Ok s else chunks f d ct p s) <> Diverge).
  { intros p s Hp2 Hp0. destruct (n <=? 0); [discriminate|]. apply IH; lia. }
  destruct (beqb typ (B"PLTE")).
  { destruct (readBytes d p2 n) as [(x, p3)|e| |] eqn:R3; cbn [bind]; try discriminate; [|exfalso; eapply RD; eauto].
    apply read_mono in R3; [|lia]. destruct (seek p3 4) as [p4|e| |] eqn:R4; cbn [bind]; try discriminate; [|exfalso; eapply SD; eauto].
    unfold seek in R4. destruct (p3 + 4 <? 0); [discriminate|]. inversion R4. apply Fin; lia. }
  destruct (beqb typ (B"tRNS")).
  { destruct (readBytes d p2 n) as [(x, p3)|e| |] eqn:R3; cbn [bind]; try discriminate; [|exfalso; eapply RD; eauto].
    apply read_mono in R3; [|lia].
    destruct (readTrns ct x (ctrns st)) as [t|e| |] eqn:R5; cbn [bind]; try discriminate; [|exfalso; eapply TD; eauto].
    destruct (seek p3 4) as [p4|e| |] eqn:R4; cbn [bind]; try discriminate; [|exfalso; eapply SD; eauto].
    unfold seek in R4. destruct (p3 + 4 <? 0); [discriminate|]. inversion R4. apply Fin; lia. }
  destruct (beqb typ (B"IDAT")).
  { destruct (readBytes d p2 n) as [(x, p3)|e| |] eqn:R3; cbn [bind]; try discriminate; [|exfalso; eapply RD; eauto].
    apply read_mono in R3; [|lia]. destruct (seek p3 4) as [p4|e| |] eqn:R4; cbn [bind]; try discriminate; [|exfalso; eapply SD; eauto].
    unfold seek in R4. destruct (p3 + 4 <? 0); [discriminate|]. inversion R4. apply Fin; lia. }
  destruct (seek p2 (n + 4)) as [p4|e| |] eqn:R4; cbn [bind]; try discriminate; [|exfalso; eapply SD; eauto].
  destruct (n <=? 0) eqn:N; [discriminate|]. unfold seek in R4. destruct (p2 + (n + 4) <? 0); [discriminate|]. inversion R4. apply IH; lia.
Qed.

(** No image makes the reader loop for ever (if inflating does not). *)
Lemma at_total : forall (l : bytes) i, at_ l i <> Diverge.
Proof. intros l i H. unfold at_ in H. destruct (i <? 0); [discriminate|]. destruct (nth_error l (Z.to_nat i)); discriminate. Qed.
Lemma read_total : forall d pos n, readBytes d pos n <> Diverge.
Proof. intros d pos n H. unfold readBytes in H. destruct (n <? 0); [discriminate|]. destruct (blen d <=? pos); discriminate. Qed.
Lemma seek_total : forall x y, seek x y <> Diverge.
Proof. intros x y X; unfold seek in X; destruct (x + y <? 0); discriminate. Qed.
Lemma bind_total : forall A C (e : res A) (f : A -> res C), e <> Diverge -> (forall x, e = Ok x -> f x <> Diverge) -> bind e f <> Diverge.
Proof. intros A C [x|x| |] f H1 H2; cbn [bind]; try discriminate; [apply H2; reflexivity|congruence]. Qed.

Lemma rows_total : forall split, (forall l, split l <> Diverge) -> forall h len i z beyond, rows split h len i z beyond <> Diverge.
Proof.
  intros split Hs. induction h as [|h IH]; intros len i z beyond; cbn [rows]; [discriminate|].
  apply bind_total; [apply at_total|]. intros t _. apply bind_total.
  { unfold slice. destruct ((0 <=? (1 + len) * i + 1) && _ && _); discriminate. }
  intros l _. apply bind_total; [apply Hs|]. intros (c, a) _. apply bind_total; [apply IH|]. intros (x, y) _. discriminate.
Qed.

Lemma split2_total : forall l, split2 l <> Diverge.
Proof.
  intros l. assert (H : forall n l, (List.length l <= n)%nat -> split2 l <> Diverge).
  { induction n as [|n IH]; intros [|g [|a r]] L; cbn [List.length] in L; try lia; cbn [split2]; try discriminate.
    apply bind_total; [apply IH; lia|]. intros (x, y) _. discriminate. }
  eapply H; eauto.
Qed.
Lemma split4_total : forall l, split4 l <> Diverge.
Proof.
  intros l. assert (H : forall n l, (List.length l <= n)%nat -> split4 l <> Diverge).
  { induction n as [|n IH]; intros [|g [|a [|c [|e r]]]] L; cbn [List.length] in L; try lia; cbn [split4]; try discriminate.
    apply bind_total; [apply IH; lia|]. intros (x, y) _. discriminate. }
  eapply H; eauto.
Qed.

Theorem png_total : forall inflate compress beyond d, (forall z, inflate z <> Diverge) -> paesePng inflate compress beyond d <> Diverge.
Proof.
  intros inflate compress beyond d HI. unfold paesePng.
  assert (RI : forall pos, readInt d pos <> Diverge).
  { intros pos. unfold readInt. apply bind_total; [apply read_total|]. intros (b, p) _. discriminate. }
  Ltac rd := apply bind_total; [first [apply read_total|apply at_total|apply seek_total|auto]|].
  rd. intros (b, p0) E0. destruct (negb _); [discriminate|]. rd. intros p1 E1. rd. intros (b2, p2) E2. destruct (negb _); [discriminate|].
  rd. intros (w, p3) E3. rd. intros (h, p4) E4. rd. intros (bp, p5) E5. rd. intros bpc _. destruct (8 <? bpc); [discriminate|].
  rd. intros (c, p6) E6. rd. intros ct _. apply bind_total.
  { destruct ((ct =? 0) || (ct =? 4)); [discriminate|]. destruct ((ct =? 2) || (ct =? 6)); [discriminate|]. destruct (ct =? 3); discriminate. }
  intros cs _. rd. intros (cm, p7) E7. rd. intros cmv _. destruct (negb _); [discriminate|].
  rd. intros (fm, p8) E8. rd. intros fmv _. destruct (negb _); [discriminate|].
  rd. intros (il, p9) E9. rd. intros ilv _. destruct (negb _); [discriminate|]. rd. intros p10 E10.
  assert (0 <= p10). { unfold seek in E10. destruct (p9 + 4 <? 0) eqn:X; [discriminate|]. inversion E10. lia. }
  apply bind_total.
  { apply chunks_total; [auto| |lia]. unfold blen. lia. }
  intros st _. destruct (beqb cs _ && _); [discriminate|]. destruct (4 <=? ct); [|discriminate].
  apply bind_total; [apply HI|]. intros z _. destruct (ct =? 4).
  - apply bind_total; [apply rows_total, split2_total|]. discriminate.
  - apply bind_total; [apply rows_total, split4_total|]. intros (x, y) _. discriminate.
Qed.

(** ** An empty chunk ends the reading *)
Theorem png_empty_chunk : forall inflate compress beyond w h depth ct crc cs c cs2 rest, 0 <= w < 32768 -> 0 <= h < 32768 -> depth <= 8 ->
  ct = 0 \/ ct = 2 -> List.length crc = 4%nat -> Forall (chunk_read ct) cs ->
  chunk_ok c -> cbody c = [] -> ~ In (ctype c) [B"IEND"; B"PLTE"; B"tRNS"; B"IDAT"] ->
  exists info, paesePng inflate compress beyond (png_file (header w h depth ct crc) (cs ++ c :: cs2) rest) = Ok info /\ idata info = image_data cs.
Proof.
  intros inflate compress beyond w h depth ct crc cs c cs2 rest Hw Hh Hd Hc C4 Hcs (T4 & K4) Hb Ht.
  rewrite file_bytes. rewrite header_read by (auto; unfold known; lia). rewrite flat_map_app. cbn [flat_map].
  set (after := flat_map chunk_bytes cs2 ++ be32 0 ++ B"IEND" ++ rest).
  set (d := head_bytes w h depth ct crc ++ (flat_map chunk_bytes cs ++ chunk_bytes c ++ flat_map chunk_bytes cs2) ++ be32 0 ++ B"IEND" ++ rest).
  destruct (chunks_run ct cs Hcs d (head_bytes w h depth ct crc) (chunk_bytes c ++ after) (mkCh [] [] [])) as (st & S1 & D1 & P1);
    [unfold d, after; rewrite <- !app_assoc; reflexivity|discriminate|].
  assert (L : exists f, S (List.length d) = (List.length cs + S f)%nat).
  { exists (List.length d - List.length cs)%nat. unfold d. rewrite !app_length. pose proof (flat_len cs). lia. }
  destruct L as (f & L). rewrite L, S1. cbn [chunks].
  set (pre := head_bytes w h depth ct crc ++ flat_map chunk_bytes cs).
  assert (E : d = pre ++ be32 0 ++ ctype c ++ ccrc c ++ after).
  { unfold d, pre, chunk_bytes at 2, after. rewrite Hb. rewrite <- !app_assoc. reflexivity. }
  rewrite (int_app d pre 0 _ _ E eq_refl) by lia. cbn [bind].
  rewrite (read_app d (pre ++ be32 0) (ctype c) (ccrc c ++ after));
    [|rewrite E, <- !app_assoc; reflexivity|reflexivity|unfold blen; rewrite T4; reflexivity|destruct (ctype c); discriminate].
  cbn [bind]. cbn [In] in Ht.
  destruct (beqb_spec (ctype c) (B"IEND")) as [X|_]; [symmetry in X; tauto|]. destruct (beqb_spec (ctype c) (B"PLTE")) as [X|_]; [symmetry in X; tauto|].
  destruct (beqb_spec (ctype c) (B"tRNS")) as [X|_]; [symmetry in X; tauto|]. destruct (beqb_spec (ctype c) (B"IDAT")) as [X|_]; [symmetry in X; tauto|].
  change (to_int 0) with 0. unfold seek. pose proof (blen_nonneg ((pre ++ be32 0) ++ ctype c)).
  destruct (Z.ltb_spec (blen ((pre ++ be32 0) ++ ctype c) + (0 + 4)) 0); [lia|]. cbn [bind]. change (0 <=? 0) with true. cbn [bind].
  unfold tail_of. cbn [cdata] in D1. unfold to_int. destruct (Z.leb_spec 32768 w); [lia|]. destruct (Z.leb_spec 32768 h); [lia|].
  destruct Hc as [-> | ->]; unfold color_space; cbn [Z.eqb Pos.eqb orb];
    [change (beqb (B"DeviceGray") (B"Indexed")) with false|change (beqb (B"DeviceRGB") (B"Indexed")) with false]; cbn [andb];
    eexists; (split; [reflexivity|]); exact D1.
Qed.

(** ** The meaning of filtered rows: every row has exactly one *)
Lemma left_app : forall bpp out v i, (0 < bpp)%nat -> (i <= List.length out)%nat -> left bpp (out ++ [v]) i = left bpp out i.
Proof.
  intros bpp out v i Hb Hi. unfold left. destruct (Nat.ltb_spec i bpp); [reflexivity|].
  destruct (Nat.eq_dec (List.length out) 0); [lia|]. rewrite app_nth1 by lia. reflexivity.
Qed.

Lemma unfiltered_exists : forall bpp ft above line, (0 < bpp)%nat -> exists out, unfiltered bpp ft above line out.
Proof.
  intros bpp ft above line Hb.
  assert (H : forall k, exists out, List.length out = k /\ forall i, (i < k)%nat ->
    nth i out 0 = (nth i line 0 + predict ft (left bpp out i) (nth i above 0) (left bpp above i)) mod 256).
  { induction k as [|k (out & L & IH)]; [exists []; split; [reflexivity|intros; lia]|].
    exists (out ++ [(nth k line 0 + predict ft (left bpp out k) (nth k above 0) (left bpp above k)) mod 256]).
    split; [rewrite app_length; cbn [List.length]; lia|]. intros i Hi. rewrite left_app by lia.
    destruct (Nat.eq_dec i k) as [->|N].
    - rewrite app_nth2, L, Nat.sub_diag by lia. reflexivity.
    - rewrite app_nth1 by lia. apply IH. lia. }
  destruct (H (List.length line)) as (out & L & U). exists out. split; auto.
Qed.

Lemma unfiltered_unique : forall bpp ft above line o1 o2, (0 < bpp)%nat ->
  unfiltered bpp ft above line o1 -> unfiltered bpp ft above line o2 -> o1 = o2.
Proof.
  intros bpp ft above line o1 o2 Hb (L1 & U1) (L2 & U2). apply nth_ext with (d := 0) (d' := 0); [congruence|].
  rewrite L1. intros n. induction n as [n IH] using (well_founded_induction lt_wf). intros Hn. rewrite U1, U2 by auto.
  f_equal. f_equal. f_equal. unfold left. destruct (Nat.ltb_spec n bpp); [reflexivity|]. apply IH; lia.
Qed.

Lemma image_exists : forall bpp w h z above, (0 < bpp)%nat -> List.length z = (h * (1 + bpp * w))%nat ->
  (forall i, (i < h)%nat -> 0 <= nth (i * (1 + bpp * w)) z 0 <= 4) -> exists rws, image bpp w above z rws /\ List.length rws = h.
Proof.
  intros bpp w. induction h as [|h IH]; intros z above Hb L F.
  - destruct z; [|discriminate]. exists []. split; constructor.
  - destruct z as [|ft z]; [cbn in L; lia|]. cbn [List.length] in L. cbn [Nat.mul] in L.
    destruct (unfiltered_exists bpp ft above (firstn (bpp * w) z) Hb) as (out & U).
    destruct (IH (skipn (bpp * w) z) out Hb) as (rws & I & K).
    { rewrite skipn_length. lia. }
    { intros i Hi. specialize (F (S i) ltac:(lia)). replace (S i * (1 + bpp * w))%nat with (S (bpp * w + i * (1 + bpp * w)))%nat in F by lia.
      cbn [nth] in F. rewrite <- (firstn_skipn (bpp * w) z) in F. rewrite app_nth2 in F by (rewrite firstn_length; lia).
      rewrite firstn_length, Nat.min_l in F by lia. replace (bpp * w + i * (1 + bpp * w) - bpp * w)%nat with (i * (1 + bpp * w))%nat in F by lia. exact F. }
    exists (out :: rws). split; [|cbn [List.length]; lia]. rewrite <- (firstn_skipn (bpp * w) z). constructor; auto.
    + apply (F 0%nat). lia.
    + rewrite firstn_length. lia.
Qed.

Lemma app_split_len : forall (a b c d : bytes), a ++ c = b ++ d -> List.length a = List.length b -> a = b /\ c = d.
Proof.
  induction a as [|x a IH]; intros [|y b] c d E L; cbn [List.length] in L; try lia; [auto|].
  cbn [app] in E. injection E as -> E. destruct (IH b c d E ltac:(lia)) as (-> & ->). auto.
Qed.

Lemma image_unique : forall bpp w above z r1, (0 < bpp)%nat -> image bpp w above z r1 -> forall r2, image bpp w above z r2 -> r1 = r2.
Proof.
  intros bpp w above z r1 Hb H. induction H as [above|above ft line z out rws F L U I IH]; intros r2 H2.
  - inversion H2. reflexivity.
  - remember (ft :: line ++ z) as zz eqn:EZ. destruct H2 as [|above ft' line' z' out' rws' F' L' U' I']; [discriminate|].
    injection EZ as -> E. destruct (app_split_len line' line z' z E ltac:(lia)) as (-> & ->).
    assert (out' = out) by (eapply unfiltered_unique; eauto). subst. f_equal. apply IH. auto.
Qed.
