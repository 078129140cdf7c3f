(** The objects of a font of 256 codes (C82). *)
From Coq Require Import String List ZArith Lia Bool.
From Verif Require Import Base BaseProofs PdfSyntax PdfSyntaxProofs Md5Rc4 Crypto CryptoProofs TtfSpec FontObjects FontMakerSpec CoreFont CoreFontSpec.
Open Scope Z_scope.
Open Scope list_scope.
Notation blank := PdfSyntaxProofs.blank.

(** ** What follows an array does not matter *)
Definition closed (s : bytes) : Prop := exists t, s = t ++ [93].
Lemma closed_cons : forall c s, closed (c :: s) -> s = [] /\ c = 93 \/ closed s.
Proof. intros c s ([|y t] & E); [left; cbn in E; split; congruence|right; exists t; cbn in E; congruence]. Qed.
Lemma closed_span : forall s x, closed s -> exists a b, span regular s = (a, b) /\ span regular (s ++ x) = (a, b ++ x) /\ closed b.
Proof.
  induction s as [|c s IH]; intros x H; [destruct H as ([|? ?] & H); discriminate|]. cbn [app span]. destruct (regular c) eqn:R.
  - destruct (closed_cons _ _ H) as [(-> & ->)|H']; [discriminate R|]. destruct (IH x H') as (a & b' & E1 & E2 & C). rewrite E1, E2. exists (c :: a), b'. auto.
  - exists [], (c :: s). auto.
Qed.
Lemma closed_skip : forall s x, closed s -> skip (s ++ x) = skip s ++ x /\ closed (skip s).
Proof.
  induction s as [|c s IH]; intros x H; [destruct H as ([|? ?] & H); discriminate|]. cbn [app skip]. destruct (wsp c) eqn:W; [|auto].
  destruct (closed_cons _ _ H) as [(-> & ->)|H']; [discriminate W|]. apply IH. exact H'.
Qed.
Lemma closed_ref : forall s x, closed s -> ref_tail s = None -> ref_tail (s ++ x) = None.
Proof.
  intros s x H R. unfold ref_tail in *. destruct (closed_skip s x H) as (E & C). rewrite E. destruct (closed_span _ x C) as (a & r & E1 & E2 & Cr). rewrite E1 in R. rewrite E2.
  destruct (atou a); [|reflexivity]. destruct (closed_skip r x Cr) as (E3 & C3). rewrite E3. destruct (closed_span _ x C3) as (k & r' & E4 & E5 & _). rewrite E4 in R. rewrite E5.
  destruct (beqb k (B"R")); [discriminate|reflexivity].
Qed.
Definition simple (v : pv) : Prop := match v with PInt _ | PName _ => True | _ => False end.
Lemma closed_value : forall f s x v r, closed s -> value f s = Some (v, r) -> simple v -> value f (s ++ x) = Some (v, r ++ x) /\ closed r.
Proof.
  intros [|f] s x v r H V Sv; [discriminate|]. cbn [value] in *. destruct (closed_skip s x H) as (E & C). rewrite E. destruct (skip s) as [|c t] eqn:Es; [discriminate|]. cbn [app].
  destruct (c =? 47) eqn:E47.
  - apply Z.eqb_eq in E47. subst c. assert (Ct : closed t) by (destruct (closed_cons _ _ C) as [(_ & X)|Ct]; [discriminate X|exact Ct]).
    destruct (closed_span t x Ct) as (n & r' & E1 & E2 & Cr). rewrite E1 in V. rewrite E2. assert (PName n = v) by congruence. assert (r' = r) by congruence. subst. auto.
  - destruct (c =? 91); [destruct (items f t) as [(l, ?)|]; [|discriminate]; assert (PArr l = v) by congruence; subst v; destruct Sv|].
    destruct (c =? 40); [destruct (CryptoSpec.lit 0 t) as [(l, ?)|]; [|discriminate]; assert (PStr l = v) by congruence; subst v; destruct Sv|].
    destruct (c =? 60).
    { exfalso. destruct t as [|d t]; [discriminate|]. destruct (d =? 60); [destruct (entries f t) as [(l, ?)|]; [|discriminate]; assert (PDict l = v) by congruence; subst v; destruct Sv|].
      destruct (span (fun x => negb (x =? 62)) (d :: t)) as (h, [|? r']); [discriminate|]. assert (PHex h = v) by congruence. subst v. destruct Sv. }
    destruct (closed_span (c :: t) x C) as (w & r' & E1 & E2 & Cr). change (c :: t ++ x) with ((c :: t) ++ x). rewrite E1 in V. rewrite E2.
    destruct w as [|w0 w]; [discriminate|]. destruct (number (w0 :: w)) as [n|]; [|assert (PWord (w0 :: w) = v) by congruence; subst v; destruct Sv].
    destruct (ref_tail r') as [(g, r2)|] eqn:Rt; [assert (PRef n g = v) by congruence; subst v; destruct Sv|]. rewrite (closed_ref _ x Cr Rt).
    assert (PInt n = v) by congruence. assert (r' = r) by congruence. subst. auto.
Qed.
Lemma closed_items : forall f s x l, closed s -> items f s = Some (l, []) -> Forall simple l -> items f (s ++ x) = Some (l, x).
Proof.
  induction f as [|f IH]; intros s x l H I0 F; [discriminate|]. cbn [items] in *. destruct (closed_skip s x H) as (E & C). rewrite E. destruct (skip s) as [|c t] eqn:Es; [discriminate|]. cbn [app].
  destruct (c =? 93); [assert (l = []) by congruence; assert (t = []) by congruence; subst; reflexivity|].
  destruct (value f (c :: t)) as [(v, r)|] eqn:V; [|discriminate]. destruct (items f r) as [(l', r')|] eqn:I1; [|discriminate].
  assert (l = v :: l') by congruence. assert (r' = []) by congruence. subst. inversion F as [|? ? Sv F']; subst.
  destruct (closed_value f (c :: t) x v r C V Sv) as (V' & Cr). change (c :: t ++ x) with ((c :: t) ++ x). rewrite V'. rewrite (IH r x l' Cr I1 F'). reflexivity.
Qed.
Lemma differences_simple : forall l at_ ds, differences l at_ = Some ds -> Forall simple l.
Proof.
  induction l as [|v l IH]; intros at_ ds H; [constructor|]. destruct v as [n|?|x|?|?|?|?|?]; try (destruct at_; discriminate).
  - constructor; [exact Logic.I|]. apply (IH (Some n) ds). destruct at_; exact H.
  - destruct at_ as [n|]; [|discriminate]. constructor; [exact Logic.I|]. cbn [differences] in H. destruct (differences l (Some (n + 1))) eqn:E; [|discriminate]. exact (IH _ _ E).
Qed.
Lemma array_then : forall t l ds x, reads (B"[" ++ t ++ B"]") (PArr l) [] -> differences l None = Some ds -> reads (B" [" ++ t ++ B"]" ++ x) (PArr l) x.
Proof.
  intros t l ds x (f & H) D. apply (reads_arr (B" ") (t ++ B"]" ++ x)); [blanks|]. destruct f as [|f]; [discriminate|]. cbn [value] in H.
  change (B"[" ++ t ++ B"]") with (91 :: t ++ [93]) in H. rewrite skip_start in H by reflexivity. change (91 =? 47) with false in H. change (91 =? 91) with true in H. cbv iota in H.
  destruct (items f (t ++ [93])) as [(l', r)|] eqn:I0; [|discriminate]. assert (l' = l) by congruence. assert (r = []) by congruence. subst.
  exists f. rewrite app_assoc. change (t ++ B"]") with (t ++ [93]). apply closed_items; [exists t; reflexivity|exact I0|exact (differences_simple _ _ _ D)].
Qed.

(** ** Widths *)
Lemma ints_read : forall ns r, reads_items (flat_map (fun n => itoa n ++ B" ") ns ++ B"]" ++ r) (map PInt ns) r.
Proof.
  induction ns as [|n ns IH]; intros r; [apply (items_end []); constructor|]. cbn [flat_map map]. destruct (itoa_hd n) as (c & t & E & W & D).
  rewrite <- !app_assoc. eapply (items_step _ c).
  - rewrite E. cbn [app]. apply skip_start. exact W.
  - unfold is_digit in D. lia.
  - apply (reads_int []); [constructor|reflexivity|]. destruct ns as [|m ns].
    + apply (ref_none (B" ") 93 r); [blanks|reflexivity|reflexivity].
    + cbn [flat_map]. rewrite <- !app_assoc. assert (X : exists y u, flat_map (fun n => itoa n ++ B" ") ns ++ B"]" ++ r = y :: u /\ wsp y = false /\ y <> 82).
      { destruct ns as [|k ns]; [exists 93, r; split; [reflexivity|split; [reflexivity|lia]]|]. destruct (itoa_hd k) as (y & u & E' & W' & D'). cbn [flat_map]. rewrite E'. eexists y, _. cbn [app]. split; [reflexivity|]. split; [exact W'|unfold is_digit in D'; lia]. }
      destruct X as (y & u & Ey & Wy & Ny). rewrite Ey. apply (ref_none2 (B" ") (itoa m) (B" ") y u); [blanks|apply itoa_reg|blanks|reflexivity|apply itoa_nn|exact Wy|exact Ny].
  - destruct (IH r) as (f & H). destruct f as [|f]; [discriminate|]. exists (Datatypes.S f). cbn [items] in *. rewrite (skip_blank (B" ")) by blanks. exact H.
Qed.
Theorem widths_read : forall cw r, reads (B"[" ++ cw2str cw ++ B"]" ++ r) (PArr (map (fun i => PInt (cw (32 + Z.of_nat i))) (seq 0 224))) r.
Proof.
  intros cw r. unfold cw2str. apply (reads_arr []); [constructor|]. rewrite <- app_assoc. pose proof (ints_read (map (fun i => cw (32 + Z.of_nat i)) (seq 0 224)) r) as H.
  rewrite map_map in H. destruct H as (f & H). destruct f as [|f]; [discriminate|]. exists (Datatypes.S f). cbn [items] in *. rewrite (skip_blank (B" ")) by blanks.
  assert (E : forall l, flat_map (fun n => itoa n ++ B" ") (map (fun i => cw (32 + Z.of_nat i)) l) = flat_map (fun i => itoa (cw (32 + Z.of_nat i)) ++ B" ") l).
  { induction l as [|i l IH]; [reflexivity|]. cbn [flat_map map]. rewrite IH. reflexivity. }
  rewrite E in H. exact H.
Qed.

(** ** Dictionaries *)
Lemma entry_then : forall k s v r l r2, reg_word k -> stops s -> reads s v r -> reads_entries r l r2 -> reads_entries (B"/" ++ k ++ s) ((k, v) :: l) r2.
Proof. intros k s v r l r2 Hk Hs Hv Hl. exact (entries_step [] k s v r l r2 (Forall_nil _) Hk Hs Hv Hl). Qed.
Theorem font_read : forall family font w d e, let name := match font with Some f => if_name f | None => family end in reg_word name ->
  reads (core_font_obj family font (Some (w, d, e))) (PDict (simple_font name w d e)) [10] /\
  reads (core_font_obj family font None) (PDict (firstn 3 (simple_font name w d e))) [10].
Proof.
  intros family font w d e name Hn. unfold core_font_obj. fold name. 
  assert (P : forall s l, reads_entries s l [10] -> reads (B"<<" ++ [10] ++ B"  /Type /Font" ++ [10] ++ B"  /Subtype /TrueType" ++ [10] ++ B"  /BaseFont /" ++ name ++ [10] ++ s)
    (PDict ((B"Type", PName (B"Font")) :: (B"Subtype", PName (B"TrueType")) :: (B"BaseFont", PName name) :: l)) [10]).
  { intros s l H. apply (reads_dict []); [constructor|].
    apply (entries_step ([10] ++ B"  ") (B"Type") (B" /Font" ++ [10] ++ B"  /Subtype /TrueType" ++ [10] ++ B"  /BaseFont /" ++ name ++ [10] ++ s) _ ([10] ++ B"  /Subtype /TrueType" ++ [10] ++ B"  /BaseFont /" ++ name ++ [10] ++ s)); [blanks|regw|reflexivity|apply (reads_name (B" ") (B"Font")); [blanks|regw|reflexivity]|].
    apply (entries_step ([10] ++ B"  ") (B"Subtype") (B" /TrueType" ++ [10] ++ B"  /BaseFont /" ++ name ++ [10] ++ s) _ ([10] ++ B"  /BaseFont /" ++ name ++ [10] ++ s)); [blanks|regw|reflexivity|apply (reads_name (B" ") (B"TrueType")); [blanks|regw|reflexivity]|].
    apply (entries_step ([10] ++ B"  ") (B"BaseFont") (B" /" ++ name ++ [10] ++ s) _ ([10] ++ s)); [blanks|regw|reflexivity|apply (reads_name (B" ") name); [blanks|exact Hn|reflexivity]|].
    apply entries_skip; [blanks|exact H]. }
  split; [|apply (P (B">>" ++ [10]) []); apply (entries_end []); constructor].
  rewrite <- !app_assoc. apply P.
  apply (entries_step (B"  ") (B"FirstChar") (B" 32 /LastChar 255" ++ [10] ++ B"  /Widths " ++ itoa w ++ B" 0 R" ++ [10] ++ B"  /FontDescriptor " ++ itoa d ++ B" 0 R" ++ [10] ++ B"  /Encoding " ++ itoa e ++ B" 0 R" ++ [10] ++ B">>" ++ [10]) (PInt 32)
    (B" /LastChar 255" ++ [10] ++ B"  /Widths " ++ itoa w ++ B" 0 R" ++ [10] ++ B"  /FontDescriptor " ++ itoa d ++ B" 0 R" ++ [10] ++ B"  /Encoding " ++ itoa e ++ B" 0 R" ++ [10] ++ B">>" ++ [10])); [blanks|regw|reflexivity| |].
  { apply (reads_int (B" ") 32); [blanks|reflexivity|reflexivity]. }
  apply (entries_step (B" ") (B"LastChar") (B" 255" ++ [10] ++ B"  /Widths " ++ itoa w ++ B" 0 R" ++ [10] ++ B"  /FontDescriptor " ++ itoa d ++ B" 0 R" ++ [10] ++ B"  /Encoding " ++ itoa e ++ B" 0 R" ++ [10] ++ B">>" ++ [10]) (PInt 255)
    ([10] ++ B"  /Widths " ++ itoa w ++ B" 0 R" ++ [10] ++ B"  /FontDescriptor " ++ itoa d ++ B" 0 R" ++ [10] ++ B"  /Encoding " ++ itoa e ++ B" 0 R" ++ [10] ++ B">>" ++ [10])); [blanks|regw|reflexivity| |].
  { apply (reads_int (B" ") 255); [blanks|reflexivity|reflexivity]. }
  apply (entries_step ([10] ++ B"  ") (B"Widths") (B" " ++ itoa w ++ B" 0 R" ++ [10] ++ B"  /FontDescriptor " ++ itoa d ++ B" 0 R" ++ [10] ++ B"  /Encoding " ++ itoa e ++ B" 0 R" ++ [10] ++ B">>" ++ [10]) _
    ([10] ++ B"  /FontDescriptor " ++ itoa d ++ B" 0 R" ++ [10] ++ B"  /Encoding " ++ itoa e ++ B" 0 R" ++ [10] ++ B">>" ++ [10])); [blanks|regw|reflexivity|apply (reads_ref (B" ") w 0); [blanks|lia|reflexivity]|].
  apply (entries_step ([10] ++ B"  ") (B"FontDescriptor") (B" " ++ itoa d ++ B" 0 R" ++ [10] ++ B"  /Encoding " ++ itoa e ++ B" 0 R" ++ [10] ++ B">>" ++ [10]) _
    ([10] ++ B"  /Encoding " ++ itoa e ++ B" 0 R" ++ [10] ++ B">>" ++ [10])); [blanks|regw|reflexivity|apply (reads_ref (B" ") d 0); [blanks|lia|reflexivity]|].
  apply (entries_step ([10] ++ B"  ") (B"Encoding") (B" " ++ itoa e ++ B" 0 R" ++ [10] ++ B">>" ++ [10]) _ ([10] ++ B">>" ++ [10])); [blanks|regw|reflexivity|apply (reads_ref (B" ") e 0); [blanks|lia|reflexivity]|].
  apply (entries_end [10]). blanks.
Qed.

Theorem encoding_read : forall f base enc, makes (if_diff f) base enc -> exists o l ds, core_encoding_obj (Some f) = Ok o /\
  reads o (PDict [(B"Type", PName (B"Encoding")); (B"BaseEncoding", PName (B"WinAnsiEncoding")); (B"Differences", PArr l)]) [10] /\
  differences l None = Some ds /\ forall c, 0 <= c < 256 -> encoded base ds c = enc c.
Proof.
  intros f base enc (l & ds & R & D & E). eexists. exists l, ds. split; [reflexivity|]. split; [|split; [exact D|exact E]].
  apply (reads_dict []); [constructor|].
  apply (entry_then (B"Type") (B" /Encoding /BaseEncoding /WinAnsiEncoding /Differences [" ++ if_diff f ++ B"]>>" ++ [10]) _ (B" /BaseEncoding /WinAnsiEncoding /Differences [" ++ if_diff f ++ B"]>>" ++ [10])); [regw|reflexivity|apply (reads_name (B" ") (B"Encoding")); [blanks|regw|reflexivity]|].
  apply (entries_step (B" ") (B"BaseEncoding") (B" /WinAnsiEncoding /Differences [" ++ if_diff f ++ B"]>>" ++ [10]) _ (B" /Differences [" ++ if_diff f ++ B"]>>" ++ [10])); [blanks|regw|reflexivity|apply (reads_name (B" ") (B"WinAnsiEncoding")); [blanks|regw|reflexivity]|].
  apply (entries_step (B" ") (B"Differences") (B" [" ++ if_diff f ++ B"]>>" ++ [10]) _ (B">>" ++ [10])); [blanks|regw|reflexivity|exact (array_then _ l ds _ R D)|].
  apply (entries_end []). constructor.
Qed.

(** The value [s] of a descriptor item is the object [v]. *)
Definition item_reads (s : bytes) (v : pv) : Prop := forall r, reads (B" " ++ s ++ B" /" ++ r) v (B" /" ++ r).
Lemma items_entries : forall ds vs r l r2, Forall2 (fun i v => reg_word (fst i) /\ item_reads (snd i) v) ds vs -> reads_entries (B"/" ++ r) l r2 ->
  reads_entries (flat_map (fun i => B"/" ++ fst i ++ B" " ++ snd i ++ B" ") ds ++ B"/" ++ r) (combine (map fst ds) vs ++ l) r2.
Proof.
  intros ds vs r l r2 F H. induction F as [|(k, s) v ds vs (Hk & Hv) F IH]; [exact H|]. cbn [flat_map map combine app fst snd] in *. rewrite <- !app_assoc.
  assert (X : exists q, flat_map (fun i => B"/" ++ fst i ++ B" " ++ snd i ++ B" ") ds ++ B"/" ++ r = B"/" ++ q).
  { destruct ds as [|i ds]; [exists r; reflexivity|]. cbn [flat_map]. rewrite <- !app_assoc. eexists. reflexivity. }
  destruct X as (q & Eq). rewrite Eq in *. eapply entry_then; [exact Hk|reflexivity|exact (Hv q)|]. apply (entries_skip (B" ")); [blanks|exact IH].
Qed.
Theorem descriptor_read : forall f n vs, reg_word (if_name f) -> Forall2 (fun i v => reg_word (fst i) /\ item_reads (snd i) v) (if_desc f) vs ->
  exists o, core_descriptor_obj (Some f) (itoa n ++ B" 0 R") = Ok o /\
    reads o (PDict ((B"Type", PName (B"FontDescriptor")) :: (B"FontName", PName (if_name f)) :: combine (map fst (if_desc f)) vs ++ [(B"FontFile2", PRef n 0)])) [10].
Proof.
  intros f n vs Hn F. eexists. split; [reflexivity|]. apply (reads_dict []); [constructor|].
  assert (H : reads_entries (B"/" ++ B"FontFile2 " ++ (itoa n ++ B" 0 R") ++ B">>" ++ [10]) [(B"FontFile2", PRef n 0)] [10]).
  { apply (entry_then (B"FontFile2") (B" " ++ (itoa n ++ B" 0 R") ++ B">>" ++ [10]) _ (B">>" ++ [10])); [regw|reflexivity| |apply (entries_end []); constructor].
    rewrite <- (app_assoc (itoa n)). apply (reads_ref (B" ") n 0); [blanks|lia|reflexivity]. }
  pose proof (items_entries _ _ _ _ _ F H) as R. clear H.
  match type of R with reads_entries ?x _ _ => set (rest := x) in R end.
  apply (entry_then (B"Type") (B" /FontDescriptor /FontName /" ++ if_name f ++ B" " ++ rest) _ (B" /FontName /" ++ if_name f ++ B" " ++ rest)); [regw|reflexivity|apply (reads_name (B" ") (B"FontDescriptor")); [blanks|regw|reflexivity]|].
  apply (entries_step (B" ") (B"FontName") (B" /" ++ if_name f ++ B" " ++ rest) _ (B" " ++ rest)); [blanks|regw|reflexivity|apply (reads_name (B" ") (if_name f)); [blanks|exact Hn|reflexivity]|].
  apply (entries_skip (B" ")); [blanks|exact R].
Qed.
Lemma item_int : forall n, item_reads (itoa n) (PInt n).
Proof. intros n r. apply (reads_int (B" ") n (B" /" ++ r)); [blanks|reflexivity|]. apply (ref_none (B" ") 47 r); [blanks|reflexivity|reflexivity]. Qed.
Lemma item_box : forall a b0 c d, item_reads (B"[" ++ itoa a ++ B" " ++ itoa b0 ++ B" " ++ itoa c ++ B" " ++ itoa d ++ B"]") (PArr [PInt a; PInt b0; PInt c; PInt d]).
Proof. intros a b0 c d r. pose proof (four_ints a b0 c d (B" /" ++ r)) as H. rewrite <- !app_assoc. exact H. Qed.

(** ** The font file *)
Theorem file_read : forall z pr id f o, core_file_obj (Some z) pr id (Some f) = Ok o ->
  exists raw, stream_text o [(B"Length", PInt (blen z)); (B"Filter", PName (B"FlateDecode")); (B"Length1", PInt (if_size f))] raw /\
    match pr with None => raw = z | Some pr => rc4 (objectkey pr id) raw = Ok z end.
Proof.
  intros z pr id f o H. unfold core_file_obj in H.
  assert (X : exists raw eols, blen raw = blen z /\ Forall (fun c => c = 10 \/ c = 13) eols /\
    o = B"<</Length " ++ itoa (blen z) ++ [10] ++ B"/Filter /FlateDecode" ++ [10] ++ B"/Length1 " ++ itoa (if_size f) ++ [10] ++ B">>" ++ [10] ++ B"stream" ++ [10] ++ (raw ++ eols) ++ [10] ++ B"endstream" ++ [10] /\
    match pr with None => raw = z | Some pr => rc4 (objectkey pr id) raw = Ok z end).
  { destruct pr as [pr|].
    - destruct (rc4 (objectkey pr id) z) as [c| | |] eqn:E; cbn [bind] in H; try discriminate. exists c, [10]. split; [unfold blen; rewrite (rc4_len _ _ _ E); reflexivity|].
      split; [constructor; [left; reflexivity|constructor]|]. split; [congruence|exact (rc4_twice _ _ _ E)].
    - cbn [bind] in H. exists z, []. rewrite app_nil_r. split; [reflexivity|]. split; [constructor|]. split; [congruence|reflexivity]. }
  destruct X as (raw & eols & L & Fe & -> & D). exists raw. split; [|exact D].
  exists ([10] ++ B"stream" ++ [10] ++ (raw ++ eols) ++ [10] ++ B"endstream" ++ [10]), (eols ++ [10]), [10]. split; [|split; [|split; [|split]]].
  - apply (reads_dict []); [constructor|]. apply (line_int (B"Length")); [regw|eexists; reflexivity|]. apply (line_name (B"Filter") (B"FlateDecode")); [regw|regw|]. apply (last_int (B"Length1")). regw.
  - rewrite (skip_blank [10]) by blanks. rewrite <- !app_assoc. reflexivity.
  - apply Forall_app. split; [exact Fe|constructor; [left; reflexivity|constructor]].
  - intros X. apply app_eq_nil in X as (_ & X). discriminate X.
  - cbn [lookup]. rewrite L. reflexivity.
Qed.
