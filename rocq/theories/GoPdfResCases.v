(** Programs for the examples of Prop_GoPdfRes.v. *)
From Coq Require Import String List ZArith Lia Bool.
From Coq.Floats Require Import SpecFloat.
From Verif Require Import Base Float64 PdfSyntax PdfSyntaxProofs Ttf Subset Text TestFont CryptoSpec FontObjects FontFinal TtfProofs TextCases Png PngSpec PngObject GoPdf GoPdfSpec GoPdfDrawSpec GoPdfDocSpec GoPdfSetSpec GoPdfResSpec GoPdfFile GoPdfMain GoPdfCases GoPdfSetCases GoPdfEmbed GoPdfPict.
Open Scope Z_scope.
Open Scope list_scope.

(** A world with JPEG and PNG pictures; 7 marks what is compressed. *)
Definition gw_pics : gworld :=
  mkGW (fun d => match d with 137 :: _ => FPng | 255 :: _ => FJpeg (Some (B"DeviceRGB")) 3 2 | _ => FBad end) (fun _ => Some (3, 2))
    (fun z => match z with 7 :: s => Ok s | _ => Err EOther end) (fun s => 7 :: s) (fun _ s => 7 :: s).
Definition a_jpeg : bytes := [255; 216; 1; 2; 3].
Definition opaque_chunks : list chunk := [mkChunk (B"IDAT") [7; 0; 1; 2; 3] [0; 0; 0; 0]].
Definition opaque_png : bytes := png_file (header 1 1 8 2 [0; 0; 0; 0]) opaque_chunks [].
Definition rgba_chunks : list chunk := [mkChunk (B"IDAT") [7; 0; 10; 20; 30; 40] [0; 0; 0; 0]].
Definition rgba_png : bytes := png_file (header 1 1 8 6 [0; 0; 0; 0]) rgba_chunks [].
(** The name of the JPEG picture comes up again with other data. *)
Definition at_ (id d : bytes) : gcall := ImageBy id d [] (fofz 1) (fofz 2) (Some (fofz 3, fofz 4)).
Definition prog_res : list gcall :=
  [a_font; std_page; SetFont (B"T") 4 12; Text (B"AB"); at_ (B"o") opaque_png; at_ (B"j") a_jpeg; at_ (B"a") rgba_png; at_ (B"j") opaque_png].
Definition saved_res := save gw_pics [] page_cfg prog_res.
Definition saved_resl := save gw_pics [] locked_cfg prog_res.

Definition splits (x : res (trace * gp * bytes)) (n : nat) (c : gcall) : Prop :=
  s_trace x = firstn n (s_trace x) ++ (state_at n (s_trace x), c, None) :: skipn (S n) (s_trace x).
Lemma no_info : forall t, info_of t = None -> forall i, info_of t = Some i -> simple_info i. Proof. intros t H i E. congruence. Qed.
Lemma res_doc : document gw_pics [] page_cfg (s_trace saved_res) (s_file saved_res) /\ map (fun x => snd (fst x)) (s_trace saved_res) = prog_res /\ blen (s_file saved_res) < 10 ^ 10 /\
  info_of (s_trace saved_res) = None /\ opens (s_file saved_res) (cfg_user page_cfg) None.
Proof.
  destruct (s_document gw_pics [] page_cfg prog_res saved_res eq_refl ltac:(vm_compute; reflexivity)) as (D & M).
  assert (Hs : blen (s_file saved_res) < 10 ^ 10) by (assert (X : (blen (s_file saved_res) <? 10 ^ 10) = true) by (vm_compute; reflexivity); lia).
  assert (Hi : info_of (s_trace saved_res) = None) by (vm_compute; reflexivity).
  split; [exact D|]. split; [exact M|]. split; [exact Hs|]. split; [exact Hi|]. destruct (doc_passwords _ _ _ _ _ D Hs (no_info _ Hi)) as (P & _). apply P. reflexivity.
Qed.
Lemma resl_doc : exists key, document gw_pics [] locked_cfg (s_trace saved_resl) (s_file saved_resl) /\ map (fun x => snd (fst x)) (s_trace saved_resl) = prog_res /\ blen (s_file saved_resl) < 10 ^ 10 /\
  info_of (s_trace saved_resl) = None /\ opens (s_file saved_resl) (cfg_user locked_cfg) (Some key).
Proof.
  destruct (s_document gw_pics [] locked_cfg prog_res saved_resl eq_refl ltac:(vm_compute; reflexivity)) as (D & M).
  assert (Hs : blen (s_file saved_resl) < 10 ^ 10) by (assert (X : (blen (s_file saved_resl) <? 10 ^ 10) = true) by (vm_compute; reflexivity); lia).
  assert (Hi : info_of (s_trace saved_resl) = None) by (vm_compute; reflexivity).
  destruct (doc_passwords _ _ _ _ _ D Hs (no_info _ Hi)) as (_ & P). destruct (P eq_refl ltac:(cbn; lia)) as (key & O & _). exists key.
  split; [exact D|]. split; [exact M|]. split; [exact Hs|]. split; [exact Hi|exact O].
Qed.
Ltac split_trace := apply nth_split_list; vm_compute; reflexivity.
Lemma plain_T : FontObjects.plain_name (B"T"). Proof. repeat constructor. Qed.
Lemma chunks_2 : Forall (chunk_read 2) opaque_chunks.
Proof. repeat constructor; try (intros; discriminate); try (cbn; lia); try discriminate. Qed.
Lemma chunks_6 : Forall (chunk_read 6) rgba_chunks.
Proof. repeat constructor; try (intros; discriminate); try (cbn; lia); try discriminate. Qed.

Lemma fonts_case : exists t F key id ws uni prog m, document gw_pics [] locked_cfg t F /\ map (fun x => snd (fst x)) t = prog_res /\ opens F (B"user") (Some key) /\
  resource F (B"Font") (B"F1") id /\ embedded_in (gw_inflate gw_pics) (Some key) F id (B"T") ws uni prog /\ (exists v, In (65, v) m) /\ (exists v, In (66, v) m) /\ font_gives test_font m ws uni prog.
Proof.
  destruct resl_doc as (key & D & M & Hs & Hi & O).
  destruct (doc_fonts gw_pics (gw_inflate gw_pics) [] locked_cfg _ _ (Some key) D Hs ltac:(cbn; lia) (no_info _ Hi) ltac:(intros; reflexivity) O (firstn 3 (s_trace saved_resl)) (state_at 3 (s_trace saved_resl)) (Text (B"AB")) (skipn 4 (s_trace saved_resl)) (B"AB") (B"T") 4 12)
    as (af & id & ws & uni & prog & m & Ff & Rs & Em & All & _ & G).
  - split_trace.
  - reflexivity.
  - vm_compute. reflexivity.
  - exact plain_T.
  - vm_compute. repeat constructor.
  - assert (En : B"F" ++ itoa (u_count (g_cur (state_at 3 (s_trace saved_resl))) + 1) = B"F1") by (vm_compute; reflexivity). rewrite En in Rs.
    assert (Ef : font_for (added (firstn 3 (s_trace saved_resl))) (B"T") 4 = Some (mkAF (B"T") 0 test_font false None)) by (vm_compute; reflexivity). rewrite Ef in Ff.
    assert (Eg : af_file af = test_font). { assert (X : af = mkAF (B"T") 0 test_font false None) by congruence. rewrite X. reflexivity. } rewrite Eg in G.
    exists (s_trace saved_resl), (s_file saved_resl), key, id, ws, uni, prog, m. split; [exact D|]. split; [exact M|]. split; [exact O|]. split; [exact Rs|]. split; [exact Em|].
    split; [apply All; vm_compute; auto|]. split; [apply All; vm_compute; auto|exact G].
Qed.
Lemma pictures_case : exists t F n2 n1 n3 d2 d1 d3 j dm, document gw_pics [] page_cfg t F /\ map (fun x => snd (fst x)) t = prog_res /\
  resource F (B"XObject") (B"I2") n2 /\ jpeg_dict 3 2 (B"DeviceRGB") d2 /\ stream_is F n2 d2 a_jpeg /\
  resource F (B"XObject") (B"I1") n1 /\ png_dict 1 1 8 3 (PName (B"DeviceRGB")) d1 /\ stream_is F n1 d1 [7; 0; 1; 2; 3] /\
  resource F (B"XObject") (B"I3") n3 /\ png_dict 1 1 8 3 (PName (B"DeviceRGB")) d3 /\ lookup (B"SMask") d3 = Some (PRef j 0) /\
    png_dict 1 1 8 1 (PName (B"DeviceGray")) dm /\ exists mb, stream_is F (j + 1) dm mb.
Proof.
  destruct res_doc as (D & M & Hs & Hi & O). pose proof (no_info _ Hi) as HI.
  destruct (doc_jpeg _ _ _ _ _ None D Hs ltac:(cbn; lia) HI O (firstn 7 (s_trace saved_res)) (state_at 7 (s_trace saved_res)) (B"j") opaque_png [] (fofz 1) (fofz 2) (Some (fofz 3, fofz 4)) (skipn 8 (s_trace saved_res)) ltac:(split_trace)
    a_jpeg [] (B"DeviceRGB") 3 2 ltac:(vm_compute; reflexivity) eq_refl ltac:(cbn; auto)) as (n2 & d2 & R2 & J2 & (raw2 & P2 & Er2) & _).
  assert (E2 : B"I" ++ itoa (fst (place (B"j") (u_cache (g_cur (state_at 7 (s_trace saved_res)))) 0) + 1) = B"I2") by (vm_compute; reflexivity). rewrite E2 in R2. cbn [decrypted] in Er2. subst raw2.
  destruct (doc_opaque _ _ _ _ _ None D Hs ltac:(cbn; lia) HI O (firstn 4 (s_trace saved_res)) (state_at 4 (s_trace saved_res)) (B"o") opaque_png [] (fofz 1) (fofz 2) (Some (fofz 3, fofz 4)) (skipn 5 (s_trace saved_res)) ltac:(split_trace)
    [] 1 1 8 2 [0; 0; 0; 0] opaque_chunks [] ltac:(lia) ltac:(lia) ltac:(lia) ltac:(auto) eq_refl chunks_2 ltac:(vm_compute; reflexivity) eq_refl) as (n1 & d1 & R1 & J1 & (raw1 & P1 & Er1) & _).
  assert (E1 : B"I" ++ itoa (fst (place (B"o") (u_cache (g_cur (state_at 4 (s_trace saved_res)))) 0) + 1) = B"I1") by (vm_compute; reflexivity). rewrite E1 in R1. cbn [decrypted] in Er1. subst raw1.
  destruct (doc_rgba _ _ _ _ _ None D Hs ltac:(cbn; lia) HI O ltac:(intros x; split; [discriminate|reflexivity]) (firstn 6 (s_trace saved_res)) (state_at 6 (s_trace saved_res)) (B"a") rgba_png [] (fofz 1) (fofz 2) (Some (fofz 3, fofz 4)) (skipn 7 (s_trace saved_res)) ltac:(split_trace)
    [] 1%nat 1%nat [0; 0; 0; 0] rgba_chunks [] [0; 10; 20; 30; 40] [] [[10; 20; 30; 40]] ltac:(lia) ltac:(lia) eq_refl chunks_6 eq_refl) as (n3 & d3 & j & dm & cb & mb & color & alpha & R3 & _ & J3 & _ & _ & (raw3 & P3 & Er3) & Jm & _ & _ & Sm).
  { apply (image_row 4 1 [] 0 [10; 20; 30; 40] []); [lia|reflexivity| |constructor]. split; [reflexivity|]. intros i Hq. do 4 (destruct i as [|i]; [vm_compute; reflexivity|]). cbn in Hq. lia. }
  { reflexivity. }
  { vm_compute. reflexivity. }
  { reflexivity. }
  assert (E3 : B"I" ++ itoa (fst (place (B"a") (u_cache (g_cur (state_at 6 (s_trace saved_res)))) 0) + 1) = B"I3") by (vm_compute; reflexivity). rewrite E3 in R3. cbn [decrypted] in Er3. subst raw3.
  exists (s_trace saved_res), (s_file saved_res), n2, n1, n3, d2, d1, d3, j, dm. split; [exact D|]. split; [exact M|]. split; [exact R2|]. split; [exact J2|]. split; [exact P2|]. split; [exact R1|]. split; [exact J1|]. split; [exact P1|].
  split; [exact R3|]. split; [exact J3|]. split; [exact Sm|]. split; [exact Jm|]. eauto.
Qed.
(** In a protected document the object of the picture is no stream. *)
Lemma protected_case : exists t F key n d, document gw_pics [] locked_cfg t F /\ map (fun x => snd (fst x)) t = prog_res /\ opens F (B"user") (Some key) /\
  resource F (B"XObject") (B"I2") n /\ jpeg_dict 3 2 (B"DeviceRGB") d /\ picture_data (Some key) F n d a_jpeg /\ forall d' s, ~ stream_is F n d' s.
Proof.
  destruct resl_doc as (key & D & M & Hs & Hi & O). pose proof (no_info _ Hi) as HI.
  destruct (doc_jpeg _ _ _ _ _ (Some key) D Hs ltac:(cbn; lia) HI O (firstn 7 (s_trace saved_resl)) (state_at 7 (s_trace saved_resl)) (B"j") opaque_png [] (fofz 1) (fofz 2) (Some (fofz 3, fofz 4)) (skipn 8 (s_trace saved_resl)) ltac:(split_trace)
    a_jpeg [] (B"DeviceRGB") 3 2 ltac:(vm_compute; reflexivity) eq_refl ltac:(cbn; auto)) as (n2 & d2 & R2 & J2 & P2 & N2).
  assert (E2 : B"I" ++ itoa (fst (place (B"j") (u_cache (g_cur (state_at 7 (s_trace saved_resl)))) 0) + 1) = B"I2") by (vm_compute; reflexivity). rewrite E2 in R2.
  exists (s_trace saved_resl), (s_file saved_resl), key, n2, d2. split; [exact D|]. split; [exact M|]. split; [exact O|]. split; [exact R2|]. split; [exact J2|]. split; [exact P2|]. eapply N2. reflexivity.
Qed.

(** ** The other font *)

(** Two fonts of a family, the first added with underlining in its style: the
    resources have the first one only, SetFont takes the second, and its texts are
    drawn with the first, which is embedded without glyphs. *)
Definition prog_under : list gcall :=
  [AddFont (B"T") false 4 (Some (font_file (tables_of 1000 5))) [0; 0]; a_font; std_page; SetFont (B"T") 0 12; Text (B"A")].
Definition saved_under := save gw_id [] page_cfg prog_under.
Definition bufs_under : list bytes := Eval vm_compute in s_bufs saved_under.
Lemma under_case : exists t F a q b d7 d8 c, document gw_id [] page_cfg t F /\ map (fun x => snd (fst x)) t = prog_under /\ Forall (fun x => snd x = None) t /\
  t = a ++ (q, Text (B"A"), None) :: b /\ font_for (added a) (B"T") 0 = Some (mkAF (B"T") 0 test_font false None) /\ char_glyph test_font 65 1 /\
  stream_is F 15 c (B"BT" ++ [10] ++ B"10.00 290.00 TD" ++ [10] ++ B"/F1 12 Tf" ++ [10] ++ B"[<0001>] TJ" ++ [10] ++ B"ET" ++ [10]) /\
  resource F (B"Font") (B"F1") 8 /\ object_is F 8 (PDict d8) /\ lookup (B"DescendantFonts") d8 = Some (PArr [PRef 7 0]) /\ object_is F 7 (PDict d7) /\ lookup (B"W") d7 = Some (PArr []).
Proof.
  destruct (s_document gw_id [] page_cfg prog_under saved_under eq_refl ltac:(vm_compute; reflexivity)) as (D & M).
  assert (IU : is_file (s_file saved_under) bufs_under None None) by (apply s_is_file; vm_compute; reflexivity).
  eexists (s_trace saved_under), (s_file saved_under), (firstn 4 (s_trace saved_under)), (state_at 4 (s_trace saved_under)), (skipn 5 (s_trace saved_under)), _, _, _.
  split; [exact D|]. split; [exact M|]. split; [apply no_errors_ok; vm_compute; reflexivity|]. split; [split_trace|]. split; [vm_compute; reflexivity|].
  split.
  { eapply (glyph_index_char test_font (the (parseTtf test_font))); [| |vm_compute; reflexivity|vm_compute; reflexivity].
    - apply Forall_forall. intros x Hx. assert (Fb : forallb (fun c => (0 <=? c) && (c <? 256)) test_font = true) by (vm_compute; reflexivity). rewrite forallb_forall in Fb. specialize (Fb x Hx). unfold bytep. lia.
    - assert (X : (blen test_font <? 4611686018427387904) = true) by (vm_compute; reflexivity). lia. }
  split. { apply (case_stream _ _ _ _ 14 _ _ ([10] ++ B"stream" ++ [10] ++ (B"BT" ++ [10] ++ B"10.00 290.00 TD" ++ [10] ++ B"/F1 12 Tf" ++ [10] ++ B"[<0001>] TJ" ++ [10] ++ B"ET" ++ [10]) ++ [10] ++ B"endstream" ++ [10]) _ IU eq_refl); [intros t'; vm_compute; reflexivity| |vm_compute; reflexivity].
    exists [10]. eexists. split; [reflexivity|]. split; [blanks|left; reflexivity]. }
  split. { eexists _, _. split; [apply (case_object _ _ _ _ 2 _ _ [10] IU eq_refl); [intros t'; vm_compute; reflexivity|reflexivity|blanks]|]. split; vm_compute; reflexivity. }
  split. { apply (case_object _ _ _ _ 7 _ _ [10] IU eq_refl); [intros t'; vm_compute; reflexivity|reflexivity|blanks]. }
  split; [vm_compute; reflexivity|].
  split. { apply (case_object _ _ _ _ 6 _ _ [10] IU eq_refl); [intros t'; vm_compute; reflexivity|reflexivity|blanks]. }
  vm_compute. reflexivity.
Qed.

(** ** Strings *)

(** The strings of a protected document are not enciphered: a reader that
    deciphers them (ISO 32000-1, 7.6.2) does not find the collection Adobe. *)
Definition lock : Crypto.protection := Eval vm_compute in match Crypto.setProtection [] 4 (B"user") (B"owner") with Ok p => p | _ => Crypto.mkProt [] [] 0 [] end.
Definition bufs_lock : list bytes := Eval vm_compute in s_bufs saved_resl.
Lemma strings_case : exists t F key d e s, document gw_pics [] locked_cfg t F /\ map (fun x => snd (fst x)) t = prog_res /\ opens F (B"user") (Some key) /\
  object_is F 7 (PDict d) /\ lookup (B"Subtype") d = Some (PName (B"CIDFontType2")) /\ lookup (B"CIDSystemInfo") d = Some (PDict e) /\ lookup (B"Registry") e = Some (PStr (B"Adobe")) /\
  Md5Rc4.rc4 (object_key key 7 0) (B"Adobe") = Ok s /\ s <> B"Adobe".
Proof.
  destruct resl_doc as (_ & D & M & Hs & Hi & _). destruct (doc_opens _ _ _ _ _ D Hs (no_info _ Hi)) as (_ & P).
  destruct (P eq_refl ltac:(cbn; lia) lock ltac:(vm_compute; reflexivity)) as (O & _).
  assert (IU : is_file (s_file saved_resl) bufs_lock (Some 15) None) by (apply s_is_file; vm_compute; reflexivity).
  eexists (s_trace saved_resl), (s_file saved_resl), _, _, _, _. split; [exact D|]. split; [exact M|]. split; [exact O|].
  split. { apply (case_object _ _ _ _ 6 _ _ [10] IU eq_refl); [intros t'; vm_compute; reflexivity|reflexivity|blanks]. }
  split; [vm_compute; reflexivity|]. split; [vm_compute; reflexivity|]. split; [vm_compute; reflexivity|]. split; [vm_compute; reflexivity|discriminate].
Qed.
