(** The image object as a reader of PDF sees it. *)
From Coq Require Import String List ZArith Lia Bool.
From Verif Require Import Base BaseProofs Output PdfData PagesProofs CryptoSpec PdfSyntax PdfSyntaxProofs Png PngSpec PngProofs.
Open Scope Z_scope.
Open Scope list_scope.

Definition spaces : list bytes := [B"DeviceGray"; B"DeviceRGB"; B"DeviceCMYK"; B"Indexed"].

(** What the parsers make: [b] bits per component, [c] colours (None: JPEG). *)
Definition made (i : imgInfo) (b : Z) (c : option Z) : Prop :=
  In (colspace i) spaces /\ bitsPer i = itoa b /\
  match c with
  | None => ifilter i = B"DCTDecode" /\ parms i = []
  | Some c => ifilter i = B"FlateDecode" /\
      exists sp, blank sp /\ sp <> [] /\
      parms i = B"/Predictor 15 /Colors" ++ sp ++ itoa c ++ B" /BitsPerComponent " ++ itoa b ++ B" /Columns " ++ itoa (iw i)
  end.

Definition img_dict (i : imgInfo) (b : Z) (c : option Z) : list (bytes * pv) :=
  [(B"Type", PName (B"XObject")); (B"Subtype", PName (B"Image")); (B"Width", PInt (iw i)); (B"Height", PInt (ih i))]
  ++ (if beqb (colspace i) (B"Indexed")
      then [(B"ColorSpace", PArr [PName (B"Indexed"); PName (B"DeviceRGB"); PInt (Z.quot (blen (pal i)) 3 - 1); PRef 1 0])]
      else (B"ColorSpace", PName (colspace i)) ::
           (if beqb (colspace i) (B"DeviceCMYK") then [(B"Decode", PArr (map PInt [1; 0; 1; 0; 1; 0; 1; 0]))] else []))
  ++ [(B"BitsPerComponent", PInt b); (B"Filter", PName (ifilter i))]
  ++ match c with
     | None => []
     | Some c => [(B"DecodeParms", PDict [(B"Predictor", PInt 15); (B"Colors", PInt c); (B"BitsPerComponent", PInt b); (B"Columns", PInt (iw i))])]
     end
  ++ match trns i with [] => [] | t => [(B"Mask", PArr (flat_map (fun x => [PInt x; PInt x]) t))] end
  ++ match smask i with [] => [] | _ => [(B"SMask", PRef (smaskID i) 0)] end
  ++ [(B"Length", PInt (blen (idata i)))].

Ltac regw := repeat (apply Forall_cons; [reflexivity|]); apply Forall_nil.

Lemma mask_items : forall t r, reads_items (flat_map (fun c => itoa c ++ B" " ++ itoa c ++ B" ") t ++ B"]" ++ r) (flat_map (fun x => [PInt x; PInt x]) t) r.
Proof.
  induction t as [|x t IH]; intros r; [apply (items_end []); apply Forall_nil|]. cbn [flat_map app].
  specialize (IH r). set (X := flat_map (fun c => itoa c ++ B" " ++ itoa c ++ B" ") t ++ B"]" ++ r) in *.
  rewrite <- !app_assoc. fold X.
  destruct (itoa_hd x) as (c & u & E & W & D). pose proof (itoa_reg x) as RX. pose proof (itoa_nn x) as NX.
  assert (N93 : c <> 93) by (unfold is_digit in D; lia).
  assert (HX : (exists y, X = 93 :: y) \/ exists z y, X = itoa z ++ B" " ++ itoa z ++ B" " ++ y).
  { unfold X. destruct t as [|z t']; [left; eexists; reflexivity|right]. exists z. cbn [flat_map]. rewrite <- !app_assoc. eauto. }
  assert (Rt : forall w, blank w -> w <> [] -> ref_tail (w ++ X) = None).
  { intros w Hw Nw. destruct HX as [(y & ->)|(z & y & ->)].
    - apply ref_none; auto.
    - destruct (itoa_hd z) as (c' & u' & E' & W' & D'). rewrite E'. cbn [app].
      rewrite <- E' at 1 || idtac. change (c' :: u' ++ B" " ++ c' :: u' ++ B" " ++ y) with ((c' :: u') ++ B" " ++ c' :: (u' ++ B" " ++ y)).
      apply ref_none2; auto; try discriminate; [rewrite <- E'; apply itoa_reg|blanks|reflexivity|unfold is_digit in D'; lia]. }
  assert (SX : forall w, reads_items X w r -> reads_items (B" " ++ X) w r).
  { intros w ([|f] & H); [discriminate|]. exists (S f). exact H. }
  eapply items_step with (c := c) (t := u ++ B" " ++ itoa x ++ B" " ++ X).
  - rewrite E. cbn [app]. apply skip_start; auto.
  - auto.
  - apply (reads_int [] x); [apply Forall_nil|reflexivity|]. 
    destruct HX as [(y & ->)|(z & y & ->)].
    + apply (ref_none2 (B" ") (itoa x) (B" ") 93 y); auto; try discriminate; try reflexivity; blanks.
    + destruct (itoa_hd z) as (c' & u' & E' & W' & D'). rewrite E'. cbn [app].
      apply (ref_none2 (B" ") (itoa x) (B" ") c'); auto; try reflexivity; try blanks. unfold is_digit in D'; lia.
  - eapply items_step with (c := c) (t := u ++ B" " ++ X).
    + rewrite E. change (skip (B" " ++ (c :: u) ++ B" " ++ X)) with (skip ((c :: u) ++ B" " ++ X)). cbn [app]. apply skip_start; auto.
    + auto.
    + apply (reads_int (B" ") x); [blanks|reflexivity|]. apply Rt; [blanks|discriminate].
    + apply SX. exact IH.
Qed.

Lemma line_parms : forall sp c b w r l r2, blank sp -> sp <> [] -> reads_entries r l r2 ->
  reads_entries (B"/DecodeParms <<" ++ (B"/Predictor 15 /Colors" ++ sp ++ itoa c ++ B" /BitsPerComponent " ++ itoa b ++ B" /Columns " ++ itoa w) ++ B">>" ++ [10] ++ r)
    ((B"DecodeParms", PDict [(B"Predictor", PInt 15); (B"Colors", PInt c); (B"BitsPerComponent", PInt b); (B"Columns", PInt w)]) :: l) r2.
Proof.
  intros sp c b w r l r2 Hs Ns Hl. rewrite <- !app_assoc.
  match goal with |- reads_entries ?s _ _ =>
    change s with (47 :: B"DecodeParms" ++ B" <<" ++ B"/Predictor 15 /Colors" ++ sp ++ itoa c ++ B" /BitsPerComponent " ++ itoa b ++ B" /Columns " ++ itoa w ++ B">>" ++ [10] ++ r) end.
  eapply line_any; [regw|reflexivity| |exact Hl]. apply (reads_dict (B" ")); [blanks|].
  apply (entries_step [] (B"Predictor") (B" 15 /Colors" ++ sp ++ itoa c ++ B" /BitsPerComponent " ++ itoa b ++ B" /Columns " ++ itoa w ++ B">>" ++ [10] ++ r)
          _ (B" /Colors" ++ sp ++ itoa c ++ B" /BitsPerComponent " ++ itoa b ++ B" /Columns " ++ itoa w ++ B">>" ++ [10] ++ r)); [apply Forall_nil|regw|reflexivity| |].
  { apply (reads_int (B" ") 15); [blanks|reflexivity|]. apply (ref_none (B" ") 47); [blanks|reflexivity|reflexivity]. }
  apply (entries_step (B" ") (B"Colors") (sp ++ itoa c ++ B" /BitsPerComponent " ++ itoa b ++ B" /Columns " ++ itoa w ++ B">>" ++ [10] ++ r)
          _ (B" /BitsPerComponent " ++ itoa b ++ B" /Columns " ++ itoa w ++ B">>" ++ [10] ++ r)); [blanks|regw| | |].
  { destruct sp as [|x sp]; [congruence|]. inversion Hs as [|? ? Hx _]; subst. cbn. unfold regular. rewrite Hx. reflexivity. }
  { apply reads_int; [auto|reflexivity|]. apply (ref_none (B" ") 47); [blanks|reflexivity|reflexivity]. }
  apply (entries_step (B" ") (B"BitsPerComponent") (B" " ++ itoa b ++ B" /Columns " ++ itoa w ++ B">>" ++ [10] ++ r)
          _ (B" /Columns " ++ itoa w ++ B">>" ++ [10] ++ r)); [blanks|regw|reflexivity| |].
  { apply reads_int; [blanks|reflexivity|]. apply (ref_none (B" ") 47); [blanks|reflexivity|reflexivity]. }
  apply (entries_step (B" ") (B"Columns") (B" " ++ itoa w ++ B">>" ++ [10] ++ r) _ (B">>" ++ [10] ++ r)); [blanks|regw|reflexivity| |].
  { apply reads_int; [blanks|reflexivity|]. apply (ref_none [] 62); [apply Forall_nil|reflexivity|reflexivity]. }
  apply (entries_end []). apply Forall_nil.
Qed.

Lemma line_color : forall i r l r2, In (colspace i) spaces -> reads_entries r l r2 ->
  reads_entries ((if beqb (colspace i) (B"Indexed")
      then B"/ColorSpace [/Indexed /DeviceRGB " ++ itoa (Z.quot (blen (pal i)) 3 - 1) ++ B" " ++ itoa (0 + 1) ++ B" 0 R]" ++ [10]
      else B"/ColorSpace /" ++ colspace i ++ [10]
           ++ (if beqb (colspace i) (B"DeviceCMYK") then B"/Decode [1 0 1 0 1 0 1 0]" ++ [10] else [])) ++ r)
  ((if beqb (colspace i) (B"Indexed")
      then [(B"ColorSpace", PArr [PName (B"Indexed"); PName (B"DeviceRGB"); PInt (Z.quot (blen (pal i)) 3 - 1); PRef 1 0])]
      else (B"ColorSpace", PName (colspace i)) ::
           (if beqb (colspace i) (B"DeviceCMYK") then [(B"Decode", PArr (map PInt [1; 0; 1; 0; 1; 0; 1; 0]))] else [])) ++ l) r2.
Proof.
  intros i r l r2 H Hl. set (n := Z.quot (blen (pal i)) 3 - 1). clearbody n. unfold spaces in H. cbn [In] in H.
  assert (Plain : forall cs, reg_word cs -> reads_entries ((B"/ColorSpace /" ++ cs ++ [10] ++ []) ++ r) ((B"ColorSpace", PName cs) :: l) r2).
  { intros cs Hc. rewrite app_nil_r. rewrite <- !app_assoc. apply (line_name (B"ColorSpace") cs); [regw|auto|auto]. }
  destruct H as [<-|[<-|[<-|[<-|[]]]]].
  - apply Plain. regw.
  - apply Plain. regw.
  - change (beqb (B"DeviceCMYK") (B"Indexed")) with false. cbn iota. rewrite beqb_refl. rewrite <- !app_assoc.
    apply (line_name (B"ColorSpace") (B"DeviceCMYK")); [regw|regw|]. cbn [app].
    apply (line_any (B"Decode") (B" [1 0 1 0 1 0 1 0]" ++ [10] ++ r) _ r); [regw|reflexivity| |exact Hl].
    exists 30%nat. reflexivity.
  - rewrite beqb_refl. rewrite <- !app_assoc.
    apply (line_any (B"ColorSpace") (B" [/Indexed /DeviceRGB " ++ itoa n ++ B" " ++ itoa 1 ++ B" 0 R]" ++ [10] ++ r) _ r); [regw|reflexivity| |exact Hl].
    apply (reads_arr (B" ")); [blanks|].
    eapply items_step; [reflexivity|discriminate|apply (reads_name [] (B"Indexed")); [apply Forall_nil|regw|reflexivity]|].
    eapply items_step; [reflexivity|discriminate|apply (reads_name (B" ") (B"DeviceRGB") (B" " ++ itoa n ++ B" " ++ itoa 1 ++ B" 0 R]" ++ [10] ++ r)); [blanks|regw|reflexivity]|].
    destruct (itoa_hd n) as (c & u & E & W & D).
    eapply items_step with (c := c).
    + rewrite E. match goal with |- skip (B" " ++ ?y) = _ => change (skip (B" " ++ y)) with (skip y) end. cbn [app]. apply skip_start; auto.
    + unfold is_digit in D. lia.
    + apply (reads_int (B" ")); [blanks|reflexivity|]. apply (ref_none2 (B" ") (itoa 1) (B" ") 48); [blanks|apply itoa_reg|blanks|reflexivity|apply itoa_nn|reflexivity|discriminate].
    + eapply items_step; [reflexivity|discriminate| |].
      * apply (reads_ref (B" ") 1 0 (B"]" ++ [10] ++ r)); [blanks|lia|reflexivity].
      * apply (items_end []). apply Forall_nil.
Qed.

Lemma trim_right_slash : forall s, In 47 s -> trim_right_space s <> [].
Proof.
  intros s Hi HX. unfold trim_right_space in HX.
  assert (K : forall n l, (forall t, In 47 (firstn (rspace_len t) t) -> False) -> In 47 l -> In 47 (drop_runs rspace_len n l)).
  { induction n as [|n IHn]; intros l Hr Hl; [exact Hl|]. cbn [drop_runs]. destruct (rspace_len l) as [|k] eqn:EK; [exact Hl|].
    apply IHn; auto. rewrite <- (firstn_skipn (S k) l) in Hl. apply in_app_or in Hl. destruct Hl as [Hl|Hl]; [|exact Hl].
    exfalso. apply (Hr l). rewrite EK. exact Hl. }
  assert (Hr : forall t, In 47 (firstn (rspace_len t) t) -> False).
  { intros t. unfold rspace_len. destruct t as [|c0 t]; [cbn; tauto|]. destruct (is_space1 c0) eqn:S1.
    - cbn [firstn In]. intros [->|[]]. discriminate.
    - destruct t as [|d t]; [cbn; tauto|]. destruct (is_space2 d c0) eqn:S2.
      + cbn [firstn In]. unfold is_space2 in S2. intros [->|[->|[]]]; lia.
      + destruct t as [|e t]; [cbn; tauto|]. destruct (is_space3 e d c0) eqn:S3; [|cbn; tauto].
        cbn [firstn In]. unfold is_space3 in S3. intros [->|[->|[->|[]]]]; lia. }
  specialize (K (List.length s) (rev s) Hr (proj1 (in_rev s 47) Hi)). apply (f_equal (@rev Z)) in HX. rewrite rev_involutive in HX. rewrite HX in K. exact K.
Qed.

Lemma image_reads : forall i b c rest, made i b c -> reads (buildImgProp i ++ B"/Length " ++ itoa (blen (idata i)) ++ [10] ++ B">>" ++ rest) (PDict (img_dict i b c)) rest.
Proof.
  intros i b c rest (Hc & Hb & Hf).
  unfold buildImgProp. rewrite Hb. rewrite <- !app_assoc.
  change (B"<</Type /XObject" ++ ?x) with (B"<<" ++ B"/Type /XObject" ++ x). 
  apply (reads_dict []); [apply Forall_nil|].
  unfold img_dict. cbn [app].
  apply (line_name (B"Type") (B"XObject")); [regw|regw|].
  apply (line_name (B"Subtype") (B"Image")); [regw|regw|].
  apply (line_int (B"Width")); [regw|eexists; reflexivity|].
  apply (line_int (B"Height")); [regw| |].
  { destruct (beqb (colspace i) (B"Indexed")); eexists; reflexivity. }
  apply line_color; auto.
  apply (line_int (B"BitsPerComponent")); [regw| |].
  { destruct c as [c|]; destruct Hf as (-> & _); eexists; reflexivity. }
  assert (Tail : reads_entries (match trns i with
     | [] => []
     | t => B"/Mask [" ++ flat_map (fun c => itoa c ++ B" " ++ itoa c ++ B" ") t ++ B"]" ++ [10]
     end ++ match smask i with [] => [] | _ => B"/SMask " ++ itoa (smaskID i) ++ B" 0 R" ++ [10] end
     ++ B"/Length " ++ itoa (blen (idata i)) ++ [10] ++ B">>" ++ rest)
     (match trns i with [] => [] | t => [(B"Mask", PArr (flat_map (fun x => [PInt x; PInt x]) t))] end
  ++ match smask i with [] => [] | _ => [(B"SMask", PRef (smaskID i) 0)] end
  ++ [(B"Length", PInt (blen (idata i)))]) rest).
  { assert (T2 : reads_entries (match smask i with [] => [] | _ => B"/SMask " ++ itoa (smaskID i) ++ B" 0 R" ++ [10] end
       ++ B"/Length " ++ itoa (blen (idata i)) ++ [10] ++ B">>" ++ rest)
       (match smask i with [] => [] | _ => [(B"SMask", PRef (smaskID i) 0)] end ++ [(B"Length", PInt (blen (idata i)))]) rest).
    { pose proof (last_int (B"Length") (blen (idata i)) rest) as LI.
      destruct (smask i) as [|x y]; [apply LI; regw|]. rewrite <- !app_assoc. cbn [app].
      apply (line_ref (B"SMask")); [regw|]. apply LI. regw. }
    destruct (trns i) as [|x t]; [exact T2|]. set (tt := x :: t) in *. rewrite <- !app_assoc.
    eapply (line_any (B"Mask") (B" [" ++ flat_map (fun c => itoa c ++ B" " ++ itoa c ++ B" ") tt ++ B"]" ++ [10] ++ _)); [regw|reflexivity| |exact T2].
    apply (reads_arr (B" ")); [blanks|]. apply mask_items. }
  destruct c as [c|].
  - destruct Hf as (-> & sp & Hs & Ns & Hp). change (beqb (trim_space (B"FlateDecode")) []) with false. cbn iota.
    assert (beqb (trim_space (parms i)) [] = false) as ->.
    { apply beqb_neq. rewrite Hp. unfold trim_space, trim_left_space.
      match goal with |- context[drop_runs _ _ ?s] => change s with (47 :: tl s) end. rewrite drop_runs_0 by reflexivity.
      apply trim_right_slash. left. reflexivity. }
    rewrite Hp. rewrite <- !app_assoc.
    apply (line_name (B"Filter") (B"FlateDecode")); [regw|regw|]. cbn [app].
    pose proof (line_parms sp c b (iw i) _ _ _ Hs Ns Tail) as LP. rewrite <- !app_assoc in LP. exact LP.
  - destruct Hf as (-> & ->). change (beqb (trim_space (B"DCTDecode")) []) with false. change (beqb (trim_space []) []) with true. cbn iota. cbn [app].
    rewrite <- !app_assoc.
    apply (line_name (B"Filter") (B"DCTDecode")); [regw|regw|]. exact Tail.
Qed.
Lemma image_length : forall i b c, lookup (B"Length") (img_dict i b c) = Some (PInt (blen (idata i))).
Proof.
  intros. unfold img_dict. destruct (beqb (colspace i) (B"Indexed")); destruct (beqb (colspace i) (B"DeviceCMYK")); destruct c; destruct (trns i); destruct (smask i); reflexivity.
Qed.
Theorem image_syntax : forall i b c, made i b c -> stream_object (image_object i) (img_dict i b c) (idata i).
Proof.
  intros i b c M. exists ([10] ++ B"stream" ++ [10] ++ idata i ++ [10] ++ B"endstream" ++ [10]), [10], [10], [10].
  split; [exact (image_reads i b c _ M)|]. split; [reflexivity|]. split; [auto|]. split; [auto|]. apply image_length.
Qed.

(** ** Whole images *)

(** The dictionary of a PNG image: size, depth, colours, filter. *)
Definition png_dict (w h depth colors : Z) (cs : pv) (d : list (bytes * pv)) : Prop :=
  lookup (B"Type") d = Some (PName (B"XObject")) /\ lookup (B"Subtype") d = Some (PName (B"Image")) /\
  lookup (B"Width") d = Some (PInt w) /\ lookup (B"Height") d = Some (PInt h) /\ lookup (B"ColorSpace") d = Some cs /\
  lookup (B"BitsPerComponent") d = Some (PInt depth) /\ lookup (B"Filter") d = Some (PName (B"FlateDecode")) /\
  lookup (B"DecodeParms") d = Some (PDict [(B"Predictor", PInt 15); (B"Colors", PInt colors); (B"BitsPerComponent", PInt depth); (B"Columns", PInt w)]).

Lemma parms_made : forall i b c, ifilter i = B"FlateDecode" -> bitsPer i = itoa b -> In (colspace i) spaces ->
  parms i = B"/Predictor 15 /Colors  " ++ itoa c ++ B" /BitsPerComponent " ++ itoa b ++ B" /Columns " ++ itoa (iw i) -> made i b (Some c).
Proof.
  intros i b c F Bp S Pa. split; [exact S|]. split; [exact Bp|]. split; [exact F|]. exists (B"  "). split; [blanks|]. split; [discriminate|].
  rewrite Pa. reflexivity.
Qed.

Lemma dict_made : forall i b c, ifilter i = B"FlateDecode" -> In (colspace i) spaces ->
  png_dict (iw i) (ih i) b c (if beqb (colspace i) (B"Indexed")
     then PArr [PName (B"Indexed"); PName (B"DeviceRGB"); PInt (Z.quot (blen (pal i)) 3 - 1); PRef 1 0] else PName (colspace i)) (img_dict i b (Some c)).
Proof.
  intros i b c F S. unfold img_dict. rewrite F. unfold spaces in S. cbn [In] in S.
  destruct S as [<-|[<-|[<-|[<-|[]]]]]; repeat split.
Qed.

Lemma opaque_info : forall config inflate compress beyond w h depth ct crc cs rest, 0 <= w < 32768 -> 0 <= h < 32768 -> depth <= 8 ->
  ct = 0 \/ ct = 2 \/ ct = 3 -> (ct = 3 -> trim_space (palette cs) <> []) ->
  List.length crc = 4%nat -> Forall (chunk_read ct) cs ->
  let f := png_file (header w h depth ct crc) cs rest in config f = FPng ->
  exists i, parseImg config inflate compress beyond f = Ok i /\ createSMask i = None /\ idata i = image_data cs /\ made i depth (Some (if ct =? 2 then 3 else 1)) /\
    png_dict w h depth (if ct =? 2 then 3 else 1)
      (if ct =? 0 then PName (B"DeviceGray") else if ct =? 2 then PName (B"DeviceRGB")
       else PArr [PName (B"Indexed"); PName (B"DeviceRGB"); PInt (Z.quot (blen (palette cs)) 3 - 1); PRef 1 0]) (img_dict i depth (Some (if ct =? 2 then 3 else 1))).
Proof.
  intros config inflate compress beyond w h depth ct crc cs rest Hw Hh Hd Hc Hp C4 Hcs f Hf.
  destruct (png_opaque inflate compress beyond w h depth ct crc cs rest) as (i & E & Ew & Eh & Eb & Ed & Ep & Es & Ec & Ef & Epa); auto.
  exists i. unfold parseImg. rewrite Hf. fold f in E. rewrite E. split; [reflexivity|]. split; [unfold createSMask; rewrite Es; reflexivity|]. split; [exact Ed|].
  assert (S : In (colspace i) spaces).
  { rewrite Ec. unfold spaces. cbn [In]. destruct Hc as [->|[->| ->]]; cbn [Z.eqb Pos.eqb]; auto. }
  rewrite <- Ew in Epa. split; [exact (parms_made i depth _ Ef Eb S Epa)|].
  pose proof (dict_made i depth (if ct =? 2 then 3 else 1) Ef S) as D. rewrite Ew, Eh, Ec, Ep in D. destruct Hc as [->|[->| ->]]; exact D.
Qed.
Theorem opaque_object : forall config inflate compress beyond p w h depth ct crc cs rest, 0 <= w < 32768 -> 0 <= h < 32768 -> depth <= 8 ->
  ct = 0 \/ ct = 2 \/ ct = 3 -> (ct = 3 -> trim_space (palette cs) <> []) ->
  List.length crc = 4%nat -> Forall (chunk_read ct) cs ->
  let f := png_file (header w h depth ct crc) cs rest in config f = FPng ->
  exists data d, insertImgObj config inflate compress beyond p f = Ok (p, data) /\ stream_object data d (image_data cs) /\
    png_dict w h depth (if ct =? 2 then 3 else 1)
      (if ct =? 0 then PName (B"DeviceGray") else if ct =? 2 then PName (B"DeviceRGB")
       else PArr [PName (B"Indexed"); PName (B"DeviceRGB"); PInt (Z.quot (blen (palette cs)) 3 - 1); PRef 1 0]) d.
Proof.
  intros config inflate compress beyond p w h depth ct crc cs rest Hw Hh Hd Hc Hp C4 Hcs f Hf.
  destruct (opaque_info config inflate compress beyond w h depth ct crc cs rest) as (i & E & Es & Ed & M & D); auto. fold f in E.
  unfold insertImgObj. rewrite E. cbn [bind]. rewrite Es. exists (image_object i), (img_dict i depth (Some (if ct =? 2 then 3 else 1))). split; [reflexivity|]. split; [|exact D].
  rewrite <- Ed. apply image_syntax. exact M.
Qed.

(** Images with alpha: the image object refers to a new object with the mask. *)
Lemma rgba_info : forall config inflate compress beyond w h crc cs rest z extra rws, Z.of_nat h < 32768 -> Z.of_nat w < 32768 ->
  List.length crc = 4%nat -> Forall (chunk_read 6) cs ->
  (forall x, compress x <> [] /\ inflate (compress x) = Ok x) ->
  inflate (image_data cs) = Ok (z ++ extra) -> image 4 w [] z rws -> List.length rws = h ->
  let f := png_file (header (Z.of_nat w) (Z.of_nat h) 8 6 crc) cs rest in config f = FPng ->
  exists i m color alpha, parseImg config inflate compress beyond f = Ok i /\ createSMask i = Some m /\
    made m 8 (Some 1) /\ png_dict (Z.of_nat w) (Z.of_nat h) 8 1 (PName (B"DeviceGray")) (img_dict m 8 (Some 1)) /\
    (forall id, made (setSMaskObjID i id) 8 (Some 3) /\ png_dict (Z.of_nat w) (Z.of_nat h) 8 3 (PName (B"DeviceRGB")) (img_dict (setSMaskObjID i id) 8 (Some 3)) /\
       lookup (B"SMask") (img_dict (setSMaskObjID i id) 8 (Some 3)) = Some (PRef id 0)) /\
    inflate (idata i) = Ok color /\ image 3 w [] color (map rgb rws) /\
    inflate (idata m) = Ok alpha /\ image 1 w [] alpha (map alphas rws).
Proof.
  intros config inflate compress beyond w h crc cs rest z extra rws Hh Hw C4 Hcs HZ I Im L f Hf.
  destruct (png_read inflate compress beyond (Z.of_nat w) (Z.of_nat h) 8 6 crc cs rest) as (st & D & P & E); auto; try lia; [unfold known; lia|].
  fold f in E. unfold parseImg. rewrite Hf, E. unfold tail_of, color_space. cbn [Z.eqb Pos.eqb orb].
  change (beqb (B"DeviceRGB") (B"Indexed")) with false. cbn [andb].
  change (4 <=? 6) with true. cbn iota. rewrite D, I. cbn [bind].
  destruct (rows_split w beyond extra [] z rws Im) with (pre := @nil Z) (i := 0) as (color & alpha & R & C & A).
  { exists 0%nat. reflexivity. }
  { rewrite Z.mul_0_r; reflexivity. }
  rewrite Nat2Z.id, <- L. cbn [app] in R. rewrite R. cbn [bind]. rewrite beqb_refl.
  set (i := mkImg (Z.of_nat w) (Z.of_nat (List.length rws)) (B"DeviceRGB") (itoa 8) _ _ _ (compress alpha) _ _ _).
  destruct (HZ color) as (Nc & Zc). destruct (HZ alpha) as (Na & Za).
  exists i. unfold createSMask. cbn [smask i]. destruct (compress alpha) as [|a0 al] eqn:CA; [congruence|].
  set (m := mkImg (iw i) (ih i) (B"DeviceGray") _ _ _ _ _ _ _ _).
  exists m, color, alpha. split; [reflexivity|]. split; [reflexivity|].
  split. { split; [cbn; auto|]. split; [reflexivity|]. split; [reflexivity|]. exists (B" "). split; [blanks|]. split; [discriminate|]. reflexivity. }
  split. { apply (dict_made m 8 1); [reflexivity|cbn; auto]. }
  split.
  { intros id. split; [apply parms_made; try reflexivity; cbn; auto|]. split; [apply (dict_made (setSMaskObjID i id) 8 3); [reflexivity|cbn; auto]|].
    unfold img_dict. cbn [setSMaskObjID colspace i smask smaskID ifilter trns]. destruct (ctrns st); reflexivity. }
  split; [exact Zc|]. split; [exact C|]. split; [exact Za|exact A].
Qed.
Theorem rgba_object : forall config inflate compress beyond p w h crc cs rest z extra rws, Z.of_nat h < 32768 -> Z.of_nat w < 32768 ->
  List.length crc = 4%nat -> Forall (chunk_read 6) cs ->
  (forall x, compress x <> [] /\ inflate (compress x) = Ok x) ->
  inflate (image_data cs) = Ok (z ++ extra) -> image 4 w [] z rws -> List.length rws = h ->
  let f := png_file (header (Z.of_nat w) (Z.of_nat h) 8 6 crc) cs rest in config f = FPng ->
  exists id mask data d dm cbytes mbytes color alpha,
    insertImgObj config inflate compress beyond p f = Ok (mkPdf (root p) (objs p ++ [mkObj id mask]), data) /\
    (forall o, In o (objs p) -> oid o <> id) /\
    stream_object data d cbytes /\ png_dict (Z.of_nat w) (Z.of_nat h) 8 3 (PName (B"DeviceRGB")) d /\ lookup (B"SMask") d = Some (PRef id 0) /\
    stream_object mask dm mbytes /\ png_dict (Z.of_nat w) (Z.of_nat h) 8 1 (PName (B"DeviceGray")) dm /\
    inflate cbytes = Ok color /\ image 3 w [] color (map rgb rws) /\
    inflate mbytes = Ok alpha /\ image 1 w [] alpha (map alphas rws).
Proof.
  intros config inflate compress beyond p w h crc cs rest z extra rws Hh Hw C4 Hcs HZ I Im L f Hf.
  destruct (rgba_info config inflate compress beyond w h crc cs rest z extra rws) as (i & m & color & alpha & E & Es & Mm & Dm & X & Zc & Ic & Za & Ia); auto. fold f in E.
  unfold insertImgObj. rewrite E. cbn [bind]. rewrite Es. unfold putNewObject, put. set (id := maxID (objs p) + 1). destruct (X id) as (Mi & Di & Si).
  exists id, (image_object m), (image_object (setSMaskObjID i id)), (img_dict (setSMaskObjID i id) 8 (Some 3)), (img_dict m 8 (Some 1)), (idata i), (idata m), color, alpha.
  split; [reflexivity|]. split.
  { intros o Ho. pose proof (maxID_ge _ _ Ho). unfold id. lia. }
  split; [exact (image_syntax _ _ _ Mi)|]. split; [exact Di|]. split; [exact Si|]. split; [exact (image_syntax _ _ _ Mm)|]. auto.
Qed.

(** The palette does not reach the object. *)
Theorem palette_lost : forall w h cs b fl pa tr sm id p1 p2 data, blen p1 = blen p2 ->
  image_object (mkImg w h cs b fl pa tr sm id p1 data) = image_object (mkImg w h cs b fl pa tr sm id p2 data).
Proof. intros. unfold image_object, buildImgProp. cbn. rewrite H. reflexivity. Qed.

(** JPEG. *)
Definition jpeg_dict (w h : Z) (cs : bytes) (d : list (bytes * pv)) : Prop :=
  lookup (B"Type") d = Some (PName (B"XObject")) /\ lookup (B"Subtype") d = Some (PName (B"Image")) /\
  lookup (B"Width") d = Some (PInt w) /\ lookup (B"Height") d = Some (PInt h) /\ lookup (B"ColorSpace") d = Some (PName cs) /\
  lookup (B"BitsPerComponent") d = Some (PInt 8) /\ lookup (B"Filter") d = Some (PName (B"DCTDecode")) /\
  lookup (B"Decode") d = (if beqb cs (B"DeviceCMYK") then Some (PArr (map PInt [1; 0; 1; 0; 1; 0; 1; 0])) else None).
Lemma jpeg_info : forall config inflate compress beyond img cs w h, In cs [B"DeviceGray"; B"DeviceRGB"; B"DeviceCMYK"] ->
  config img = FJpeg (Some cs) w h ->
  exists i, parseImg config inflate compress beyond img = Ok i /\ createSMask i = None /\ idata i = img /\ made i 8 None /\ jpeg_dict w h cs (img_dict i 8 None).
Proof.
  intros config inflate compress beyond img cs w h Hc Hf. unfold parseImg. rewrite Hf.
  exists (mkImg w h cs (B"8") (B"DCTDecode") [] [] [] 0 [] img). split; [reflexivity|]. split; [reflexivity|]. split; [reflexivity|]. cbn [In] in Hc.
  split. { split; [cbn in *; intuition|]. split; [reflexivity|]. split; reflexivity. }
  destruct Hc as [<-|[<-|[<-|[]]]]; repeat split.
Qed.
Theorem jpeg_object : forall config inflate compress beyond p img cs w h, In cs [B"DeviceGray"; B"DeviceRGB"; B"DeviceCMYK"] ->
  config img = FJpeg (Some cs) w h ->
  exists data d, insertImgObj config inflate compress beyond p img = Ok (p, data) /\ stream_object data d img /\ jpeg_dict w h cs d.
Proof.
  intros config inflate compress beyond p img cs w h Hc Hf. destruct (jpeg_info config inflate compress beyond img cs w h Hc Hf) as (i & E & Es & Ed & M & D).
  unfold insertImgObj. rewrite E. cbn [bind]. rewrite Es. exists (image_object i), (img_dict i 8 None). split; [reflexivity|]. split; [|exact D].
  rewrite <- Ed. apply image_syntax. exact M.
Qed.
