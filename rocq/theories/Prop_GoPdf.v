(** The documents that GoPdf writes: the properties C61-C63, C65-C68, C70, C71. *)
From Coq Require Import String List ZArith Lia Bool.
From Coq.Floats Require Import SpecFloat.
From Verif Require Import Base Utf8 OutputSpec PdfSyntax Png PngSpec Float64 Ttf Text TextSpec TestFont
  GoPdf GoPdfSpec GoPdfTree GoPdfDrawSpec GoPdfDocSpec GoPdfMain GoPdfRead GoPdfKeep GoPdfCases GoPdfFaults.
Open Scope Z_scope.
Open Scope list_scope.

(** Programs are lists of calls with the states they were made in and the errors
    they returned ([runs], [document] in GoPdfSpec.v); every call may fail, and
    the program goes on. *)

(** ** C61: the file *)

(** Every object is where the cross-reference section says, and the section ends
    with a trailer that names the root.  With a creation date the trailer has a
    ">>" too many (below); what a lenient reader takes from it is right. *)
Theorem C61_structure_partial : forall w rnd cfg t F, document w rnd cfg t F -> blen F < 10 ^ 10 ->
  exists N base, table F N base /\ 3 < N /\ row_at F base 0 0 65535 102 /\
    (exists q, F = B"%PDF-1.7" ++ [10] ++ q) /\
    (forall id, 1 <= id < N -> exists b r, object_text F id (b ++ B"endobj" ++ [10] ++ r)) /\
    ((forall i, info_of t = Some i -> simple_info i) -> exists d, trailer_has F d /\ lookup (B"Size") d = Some (PInt N) /\ lookup (B"Root") d = Some (PRef 1 0) /\
       ((forall i, info_of t = Some i -> i_date i = None) -> trailer_is F (PDict d))).
Proof. exact doc_structure. Qed.
Print Assumptions C61_structure_partial.
(** Thirteen rows: two pages with contents, a font of five objects, and the first three. *)
Example C61_case : exists t F base, document gw_id [] page_cfg t F /\ map (fun x => snd (fst x)) t = prog1 /\ blen F < 10 ^ 10 /\ table F 13 base.
Proof. exact structure_case. Qed.

(** False for every document with a creation date: no value followed by
    "startxref" is behind the rows. *)
Theorem C61_date_refuted : forall w rnd cfg t F, document w rnd cfg t F -> blen F < 10 ^ 10 -> forall i d, info_of t = Some i -> i_date i = Some d -> simple_info i -> forall v, ~ trailer_is F v.
Proof. exact date_breaks. Qed.
Print Assumptions C61_date_refuted.
Example C61_date_case : exists t F i, document gw_id [] page_cfg t F /\ blen F < 10 ^ 10 /\ info_of t = Some i /\ i_date i = Some (B"20240102030405+07'00'") /\ simple_info i.
Proof. exact date_case. Qed.

(** ** C62: the pages *)

(** One page for each AddPage, in order, of the size asked for, if something was
    drawn on every page. *)
Theorem C62_pages_partial : forall w rnd cfg t F, document w rnd cfg t F -> blen F < 10 ^ 10 -> finite (cfg_w cfg) -> finite (cfg_h cfg) -> Forall drawn_page (pages_of t) ->
  exists kids, root_is F (cfg_w cfg, cfg_h cfg) kids /\ NoDup kids /\ Forall2 (fun k p => exists c, page_is F k (cfg_w cfg, cfg_h cfg) (asked cfg (fst p)) c) kids (pages_of t).
Proof. exact doc_tree. Qed.
Print Assumptions C62_pages_partial.
Example C62_case : document gw_id [] page_cfg (s_trace saved1) (s_file saved1) /\ Forall drawn_page (pages_of (s_trace saved1)) /\ List.length (pages_of (s_trace saved1)) = 2%nat.
Proof. exact pages_case. Qed.

(** False for an empty page: its object is not a PDF object at all. *)
Theorem C62_empty_page_refuted : exists w rnd cfg t F kid, document w rnd cfg t F /\ map (fun x => snd (fst x)) t = [std_page] /\ root_is F (cfg_w cfg, cfg_h cfg) [kid] /\
  (exists s, object_text F kid s) /\ forall v, ~ object_is F kid v.
Proof. exact empty_page. Qed.
Print Assumptions C62_empty_page_refuted.

(** ** C63: what is drawn *)

(** The contents of every page, decrypted and unpacked, are the operators of the
    calls made for it ([wanted] in GoPdfDrawSpec.v), one after the other.  Left out:
    pages on which a text call failed, numbers that are not finite, negative
    thickness of underlines, fonts without units. *)
Theorem C63_contents_partial : forall w inflate rnd cfg t F key, document w rnd cfg t F -> blen F < 10 ^ 10 -> finite (cfg_w cfg) -> finite (cfg_h cfg) ->
  Forall drawn_page (pages_of t) -> 0 <= cfg_perm cfg < 256 -> (forall i, info_of t = Some i -> simple_info i) ->
  (forall l x, inflate (gw_deflate w l x) = Ok x) -> opens F (cfg_user cfg) key ->
  exists kids, root_is F (cfg_w cfg, cfg_h cfg) kids /\ NoDup kids /\
    Forall2 (fun k p => exists c d s, page_is F k (cfg_w cfg, cfg_h cfg) (asked cfg (fst p)) c /\ decodes inflate key F c d s /\
      (texts_ok (snd p) -> Forall sound_op (wanted w (snd (asked cfg (fst p))) (snd p)) ->
       exists ops, operators s ops /\ Forall2 fit_op (wanted w (snd (asked cfg (fst p))) (snd p)) ops)) kids (pages_of t).
Proof. exact doc_contents. Qed.
Print Assumptions C63_contents_partial.
(** Two texts become one; then a line and a filled rectangle. *)
Example C63_case : map (fun p => map snd (wanted gw_id (snd (asked page_cfg (fst p))) (snd p))) (pages_of (s_trace saved1)) =
  [[B"BT"; B"TD"; B"Tf"; B"TJ"; B"ET"; B"m"; B"l"; B"s"; B"re"; B"f"]; [B"m"; B"l"; B"s"]].
Proof. vm_compute. reflexivity. Qed.

(** What is drawn before the first page goes to an object that no page has. *)
Theorem C63_before_page_refuted : exists w rnd cfg t F kid c c0 d d0, document w rnd cfg t F /\ map (fun x => snd (fst x)) t = prog3 /\ Forall (fun x => snd x = None) t /\
  root_is F (cfg_w cfg, cfg_h cfg) [kid] /\ page_is F kid (cfg_w cfg, cfg_h cfg) (cfg_w cfg, cfg_h cfg) c /\
  decodes (fun b => Ok b) None F c d (B"5.00 294.00 m 7.00 292.00 l s" ++ [10]) /\ decodes (fun b => Ok b) None F c0 d0 (B"1.00 -2.00 m 3.00 -4.00 l s" ++ [10]) /\ c <> c0.
Proof. exact lost_line. Qed.
Print Assumptions C63_before_page_refuted.
(** A cell with all four borders behind a text: no border is drawn. *)
Theorem C63_border_refuted : exists w rnd cfg t F d, document w rnd cfg t F /\ map (fun x => snd (fst x)) t = prog7 /\ Forall (fun x => snd x = None) t /\
  page_is F 9 (cfg_w cfg, cfg_h cfg) (cfg_w cfg, cfg_h cfg) 10 /\ decodes (fun b => Ok b) None F 10 d stream7.
Proof. exact border_lost. Qed.
Print Assumptions C63_border_refuted.
(** SetTextColor(0, 0, 0) after red: the text is still red. *)
Theorem C63_black_refuted : exists w rnd cfg t F d, document w rnd cfg t F /\ map (fun x => snd (fst x)) t = prog8 /\ Forall (fun x => snd x = None) t /\
  page_is F 9 (cfg_w cfg, cfg_h cfg) (cfg_w cfg, cfg_h cfg) 10 /\ decodes (fun b => Ok b) None F 10 d stream8.
Proof. exact black_red. Qed.
Print Assumptions C63_black_refuted.

(** ** C65: passwords *)

Theorem C65_passwords_partial : forall w rnd cfg t F, document w rnd cfg t F -> blen F < 10 ^ 10 -> (forall i, info_of t = Some i -> simple_info i) ->
  (cfg_use cfg = false -> opens F (cfg_user cfg) None) /\
  (cfg_use cfg = true -> 0 <= cfg_perm cfg < 256 -> exists key, opens F (cfg_user cfg) (Some key) /\ (cfg_owner cfg <> [] -> owner_too F (cfg_owner cfg))).
Proof. exact doc_passwords. Qed.
Print Assumptions C65_passwords_partial.
Example C65_case : exists t F key, document gw_id [] locked_cfg t F /\ map (fun x => snd (fst x)) t = prog1 /\ opens F (B"user") (Some key) /\ owner_too F (B"owner").
Proof. exact passwords_case. Qed.

(** ** C66: reading in pieces *)

(** Read with buffers of any sizes gives the file that GetBytesPdf gives, and the
    end of the file exactly when all of it was read. *)
Theorem C66_read : forall w rnd cfg t F n ns, document w rnd cfg t F -> exists g0 g g' l, g_start rnd cfg gp0 = Ok g0 /\ runs w g0 t g /\
  reads_of w (n :: ns) g = Ok (g', l) /\ all_bytes l = firstn (fold_right Nat.add O (n :: ns)) F /\
  forall i, (0 < nth i (n :: ns) O)%nat -> (i < List.length (n :: ns))%nat -> (nth_error l i = Some None <-> (List.length F <= fold_right Nat.add O (firstn i (n :: ns)))%nat).
Proof. exact doc_read. Qed.
Print Assumptions C66_read.
Example C66_case : exists g0 g g' F l, g_start [] page_cfg gp0 = Ok g0 /\ runs gw_id g0 (s_trace saved4) g /\ F = s_file saved4 /\ List.length F = 635%nat /\
  reads_of gw_id [300; 300; 300; 300]%nat g = Ok (g', l) /\ map (option_map (fun b => blen b)) l = [Some 300; Some 300; Some 35; None].
Proof. exact read_case. Qed.

(** ** C67: who wrote it *)

Theorem C67_information_partial : forall w rnd cfg t F, document w rnd cfg t F -> blen F < 10 ^ 10 -> (forall i, info_of t = Some i -> simple_info i) -> info_is F (info_of t).
Proof. exact doc_info. Qed.
Print Assumptions C67_information_partial.
Example C67_case : exists t F, document gw_id [] page_cfg t F /\ info_of t = Some (mkInfo (B"t") [] [] [] [] None) /\ info_is F (info_of t).
Proof. exact info_case. Qed.

(** False beyond the basic plane: five hexadecimal digits. *)
Theorem C67_plane_refuted : exists w rnd cfg t F, document w rnd cfg t F /\ info_of t = Some smile /\ ~ info_is F (info_of t).
Proof. exact smile_lost. Qed.
Print Assumptions C67_plane_refuted.

(** ** C68: saving again *)

(** False: after the second GetBytesPdf object 1 is not a PDF object. *)
Theorem C68_again_refuted : exists w rnd cfg g0 t g g1 F1 g2 F2, g_start rnd cfg gp0 = Ok g0 /\ runs w g0 t g /\ map (fun x => snd (fst x)) t = prog4 /\
  g_bytes w g = Ok (g1, F1) /\ g_bytes w g1 = Ok (g2, F2) /\
  object_is F1 1 (PDict [(B"Type", PName (B"Catalog")); (B"Pages", PRef 2 0)]) /\ forall v, ~ object_is F2 1 v.
Proof. exact saved_again. Qed.
Print Assumptions C68_again_refuted.

(** ** C70: widths and positions *)

(** False: MeasureTextWidth never returns a width, in any state. *)
Theorem C70_measure_refuted : forall w g text g' e, gstep w g (Measure text) = Ok (g', e) -> e <> None.
Proof. exact measure_fails. Qed.
Print Assumptions C70_measure_refuted.
Theorem C70_measure_panics : exists w rnd cfg g0 t g, g_start rnd cfg gp0 = Ok g0 /\ runs w g0 t g /\ map (fun x => snd (fst x)) t = [a_font; SetFont (B"T") 0 12] /\
  Forall (fun x => snd x = None) t /\ gstep w g (Measure (B"A")) = Panic.
Proof. exact measure_case. Qed.
Print Assumptions C70_measure_panics.
(** Two texts of width 6 from 10 on: GetX is 28 afterwards. *)
Theorem C70_advance_refuted : exists w rnd cfg t F g1 g2 g3, document w rnd cfg t F /\ map (fun x => snd (fst x)) t = prog6 ++ [SetY (fofz 50)] /\ Forall (fun x => snd x = None) t /\
  nth_error t 3 = Some (g1, Text (B"A"), None) /\ nth_error t 4 = Some (g2, Text (B"A"), None) /\ nth_error t 5 = Some (g3, SetY (fofz 50), None) /\
  u_x (g_cur g1) = fofz 10 /\ u_x (g_cur g2) = fofz 16 /\ u_x (g_cur g3) = fofz 28.
Proof. exact advance_twice. Qed.
Print Assumptions C70_advance_refuted.

(** ** C71: every picture that is accepted can be saved *)

(** False for pictures with a palette, in every document: there is no file. *)
Theorem C71_palette_refuted : forall w rnd cfg t F, document w rnd cfg t F -> forall a g id d bey x y r b, t = a ++ (g, ImageBy id d bey x y r, None) :: b ->
  (forall z, In z a -> names_image id (snd (fst z)) = false) -> forall info, parseImg (gw_config w) (gw_inflate w) (gw_compress w) bey d = Ok info -> colspace info <> B"Indexed".
Proof. exact palette_fatal. Qed.
Print Assumptions C71_palette_refuted.
Theorem C71_palette_panics : exists w rnd cfg g0 t g, g_start rnd cfg gp0 = Ok g0 /\ runs w g0 t g /\ map (fun x => snd (fst x)) t = prog11 /\ Forall (fun x => snd x = None) t /\ g_bytes w g = Panic.
Proof. exact palette_case. Qed.
Print Assumptions C71_palette_panics.
(** The mask of a transparent picture is looked for in the wrong object. *)
Theorem C71_mask_refuted : exists w rnd cfg t F d c m, document w rnd cfg t F /\ map (fun x => snd (fst x)) t = prog9 /\ Forall (fun x => snd x = None) t /\
  stream_is F 5 d [0; 10; 20; 30] /\ lookup (B"Subtype") d = Some (PName (B"Image")) /\ lookup (B"SMask") d = Some (PRef 6 0) /\
  page_is F 4 (cfg_w cfg, cfg_h cfg) (cfg_w cfg, cfg_h cfg) 6 /\ stream_is F 6 c (B"q 3.00 0 0 4.00 1.00 294.00 cm /I1 Do Q" ++ [10]) /\ lookup (B"Subtype") c = None /\
  stream_is F 7 m [0; 40] /\ lookup (B"Subtype") m = Some (PName (B"Image")).
Proof. exact mask_missed. Qed.
Print Assumptions C71_mask_refuted.
