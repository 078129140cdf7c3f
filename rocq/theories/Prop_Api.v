(** Statements about call histories on one PDFt value. *)
From Coq Require Import String List ZArith Lia Bool Permutation.
From Coq.Floats Require Import SpecFloat.
From Verif Require Import Base BaseProofs Output OutputSpec OutputProofs Props PdfData Crawl Inject Md5Rc4 Crypto Png Utf8 Float64 Ttf Subset Text Wrap Parse Api ApiSpec ApiProofs ApiIds ApiFresh ApiFrames ApiImages ApiMore TestFont ApiCases.
Open Scope Z_scope.
Open Scope list_scope.

(** ** C04 *)

(** The numbers of the saved objects are those of the document as it was opened,
    in order, and then new ones: distinct, positive, above all the old ones.
    [saved] adds the encryption dictionary to the objects. *)
Theorem C04_fresh_numbers : forall w fuel ch cs0 s0 log0 cs s log s' F,
  history w fuel cs0 new_pdft = Ok (s0, log0) ->
  history w fuel cs s0 = Ok (s, log) -> forallb (fun c => negb (is_open c)) cs = true ->
  fair (ch_ord ch) -> saveTo w fuel ch s = Ok (s', Ok F) ->
  exists os last fresh,
    F = toStream os last (root (d_pdf (s_doc s0))) (option_map enc_dict (s_prot s)) /\
    map oid (saved os last (option_map enc_dict (s_prot s))) = map oid (objs (d_pdf (s_doc s0))) ++ fresh /\
    NoDup fresh /\ (forall i, In i fresh -> 0 < i /\ forall j, In j (map oid (objs (d_pdf (s_doc s0)))) -> j < i).
Proof. exact save_fresh. Qed.
Print Assumptions C04_fresh_numbers.
Example C04_case : (do F <- saves false busy; do s <- after [KOpen F]; Ok (map oid (objs (d_pdf (s_doc s)))))
  = Ok ([1; 2; 3; 4; 5; 6; 7] ++ [8; 9] ++ [11; 12; 13; 14; 15] ++ [17; 18; 19; 20; 21] ++ [22; 23]).
Proof. exact numbers_case. Qed.

(** How many: five per registered font and one per image, beyond what page copies
    and soft masks added before. *)
Theorem C04_count : forall w fuel ch s s' F,
  saveTo w fuel ch s = Ok (s', Ok F) -> fair (ch_ord ch) -> NoDup (map snd (names_of s)) ->
  exists os last fresh,
    F = toStream os last (root (d_pdf (s_doc s))) (option_map enc_dict (s_prot s)) /\
    map oid os = map oid (objs (d_pdf (s_doc s))) ++ fresh /\
    List.length fresh = (5 * List.length (names_of s) + List.length (s_imgs s))%nat.
Proof.
  intros w fuel ch s s' F H Fa ND. destruct (save_shape w fuel ch s s' F H Fa ND) as (_ & _ & os & last & fresh & E1 & E2 & _ & _ & _ & L).
  exists os, last, fresh. auto.
Qed.
Print Assumptions C04_count.

(** ** C15 *)

(** Refuted: two saves in a row; the second file draws the image twice. *)
Theorem C15_save_twice_refuted : exists F1 F2,
  saves true [KOpen two_file; put_img [1] 2] = Ok F1 /\
  saves true [KOpen two_file; put_img [1] 2; KSave (plain_choices true)] = Ok F2 /\
  List.length (find_all (m_lit (B" Do Q")) F1) = 1%nat /\ List.length (find_all (m_lit (B" Do Q")) F2) = 2%nat.
Proof. eexists. eexists. split; [vm_compute; reflexivity|]. split; [vm_compute; reflexivity|]. split; vm_compute; reflexivity. Qed.
Print Assumptions C15_save_twice_refuted.
(** Also with nothing inserted at all. *)
Theorem C15_untouched_refuted : exists F1 F2,
  saves true [KOpen sample_file] = Ok F1 /\ saves true [KOpen sample_file; KSave (plain_choices true)] = Ok F2 /\ F1 <> F2.
Proof.
  eexists. eexists. split; [vm_compute; reflexivity|]. split; [vm_compute; reflexivity|].
  intros H. apply (f_equal (@List.length Z)) in H. vm_compute in H. discriminate H.
Qed.
Print Assumptions C15_untouched_refuted.
(** What is true: without fonts, when the copy of the object list did not share
    its array (images were added and append found no room), nothing is left
    behind, and saving again writes the same bytes.  Missing: everything else. *)
Theorem C15_save_again_partial : forall w fuel ch s s' F, names_of s = [] -> s_imgs s <> [] -> ch_room ch = false -> fair (ch_ord ch) ->
  injectFonts (ch_ord ch) (d_pdf (s_doc s)) [] = Ok (d_pdf (s_doc s), []) ->
  saveTo w fuel ch s = Ok (s', Ok F) -> saveTo w fuel ch s' = Ok (s', Ok F).
Proof. exact save_again. Qed.
Print Assumptions C15_save_again_partial.
Example C15_again_case : exists F, saves false [KOpen two_file; put_img [1] 2] = Ok F /\
  saves false [KOpen two_file; put_img [1] 2; KSave (plain_choices false)] = Ok F.
Proof. eexists. split; vm_compute; reflexivity. Qed.

(** ** C22 *)
Theorem C22_add_twice : forall w fuel cs s log name k file f b,
  history w fuel cs new_pdft = Ok (s, log) -> registered log name k file ->
  call_of w fuel (KAddFont name f b) s = Ok (s, Some EAddSameFontName).
Proof. exact add_twice. Qed.
Print Assumptions C22_add_twice.
Theorem C22_add_new : forall w fuel cs s log name d b,
  history w fuel cs new_pdft = Ok (s, log) ->
  (forall k file, ~ registered log name k file) -> forallb (fun e => negb (opens e)) log = false ->
  (forall t, parseTtf d = Ok t -> exists s', call_of w fuel (KAddFont name (Some d) b) s = Ok (s', None)) /\
  (forall e, parseTtf d = Err e -> call_of w fuel (KAddFont name (Some d) b) s = Ok (s, Some e)).
Proof. exact add_new. Qed.
Print Assumptions C22_add_new.
Theorem C22_set_unknown : forall w fuel cs s log name st sz,
  history w fuel cs new_pdft = Ok (s, log) -> (forall k file, ~ registered log name k file) ->
  call_of w fuel (KSetFont name st sz) s = Ok (s, Some EFontNameNotFound).
Proof. exact set_unknown. Qed.
Print Assumptions C22_set_unknown.
Theorem C22_set_known : forall w fuel cs s log name st sz k file,
  history w fuel cs new_pdft = Ok (s, log) -> registered log name k file ->
  exists s', call_of w fuel (KSetFont name st sz) s = Ok (s', None).
Proof. exact set_known. Qed.
Print Assumptions C22_set_known.
(** Insert without a usable font: the selected font is not registered (any more),
    or nothing was ever selected and no font has the empty name. *)
Theorem C22_insert_unset : forall w fuel cs s log t pg x y wd h al c s' e,
  history w fuel cs new_pdft = Ok (s, log) ->
  (forall name st sz, selected log name st sz -> forall k file, ~ registered log name k file) ->
  (forallb (fun e => negb (sets_font e)) log = true -> forall k file, ~ registered log [] k file) ->
  call_of w fuel (KInsert t pg x y wd h al c) s = Ok (s', e) -> s' = s /\ e = Some EFontNameNotFound.
Proof. exact insert_no_font. Qed.
Print Assumptions C22_insert_unset.
(** Insert with the selected font: one text more, with that font's file, that size
    and that style. *)
Theorem C22_insert_uses : forall w fuel cs s log t pg x y wd h al c s' e name st sz k d,
  history w fuel cs new_pdft = Ok (s, log) ->
  selected log name st sz -> registered log name k (Some d) ->
  call_of w fuel (KInsert t pg x y wd h al c) s = Ok (s', e) ->
  exists line ph, s_cont s' = s_cont s ++ [CText k (mkText t c (getConvertedStyle st) sz pg x y wd h al line ph)] /\
  pageHeight s pg = Ok ph /\
  exists f, nth_error (s_fonts s') k = Some f /\ fd_family f = name /\ parseTtf d = Ok (fd_ttf f).
Proof. exact insert_uses. Qed.
Print Assumptions C22_insert_uses.
Theorem C22_style : forall st,
  (Z.testbit (getConvertedStyle st) 1 = true <-> letter 66 98 st) /\
  (Z.testbit (getConvertedStyle st) 0 = true <-> letter 73 105 st \/ contains [196; 177] st = true) /\
  (Z.testbit (getConvertedStyle st) 2 = true <-> letter 85 117 st) /\ 0 <= getConvertedStyle st < 8.
Proof. exact style_bits. Qed.
Print Assumptions C22_style.
(** Refuted for fonts with the empty name: Insert before any SetFont. *)
Theorem C22_empty_name_refuted :
  answers [KOpen sample_file; KAddFont [] (Some test_font) [0; 0; 0; 0]; put_text (B"A")] = Ok [None; None; None].
Proof. vm_compute. reflexivity. Qed.
Print Assumptions C22_empty_name_refuted.
Example C22_case : answers [KOpen sample_file; put_text (B"A"); KSetFont (B"T") [] 9; KAddFont (B"T") (Some test_font) [0; 0; 0; 0];
    KAddFont (B"T") None []; KSetFont (B"T") (B"bu") 9; put_text (B"A"); KOpen sample_file; put_text (B"A")]
  = Ok [None; Some EFontNameNotFound; Some EFontNameNotFound; None; Some EAddSameFontName; None; None; None; Some EFontNameNotFound].
Proof. vm_compute. reflexivity. Qed.

(** ** C23 *)

(** These calls change nothing when they return an error: AddFont, the overrides,
    SetFont, the image calls, removing pages, SetProtection. *)
Theorem C23_failed_calls : forall w fuel c s s' e,
  match c with KAddFont _ _ _ | KRise _ _ | KKern _ _ | KSetFont _ _ _ | KImg _ _ _ _ _ _ _ | KImg64 _ _ _ _ _ _ _
  | KImgCache _ _ _ _ _ _ _ | KBorder _ | KRemove _ | KKeep _ | KProtect _ _ _ _ => True | _ => False end ->
  call_of w fuel c s = Ok (s', Some e) -> s' = s.
Proof. intros w fuel c s s' e A H. apply (atomic_error w fuel c s s' e); [destruct c; tauto|exact H]. Qed.
Print Assumptions C23_failed_calls.
(** Insert leaves a trace only when the font could not take up a character. *)
Theorem C23_failed_insert : forall t pg x y w h al c s s' e, insert_text t pg x y w h al c s = Ok (s', Some e) ->
  s' = s \/ exists id f m, lookup (s_fname s) (s_names s) = Some id /\ nth_error (s_fonts s) id = Some f /\ add_chars (fd_ttf f) t (fd_map f) = (m, Err e).
Proof. exact insert_error. Qed.
Print Assumptions C23_failed_insert.
(** A call that left the state alone can be left out of a history. *)
Theorem C23_leave_out : forall w fuel c s e cs, call_of w fuel c s = Ok (s, e) ->
  history w fuel (c :: cs) s = do q <- history w fuel cs s; Ok (fst q, (c, e) :: snd q).
Proof. exact skip_call. Qed.
Print Assumptions C23_leave_out.
(** Refuted for texts: the failed Insert's text is drawn, and the failed
    InsertWrapText's first character is embedded. *)
Theorem C23_insert_refuted : exists F1 F2,
  answers (start ++ [put_text bad_text]) = Ok [None; None; None; Some EOther] /\
  saves true start = Ok F1 /\ saves true (start ++ [put_text bad_text]) = Ok F2 /\ contains (B"BT" ++ [10]) F1 = false /\ contains (B"BT" ++ [10]) F2 = true.
Proof. eexists. eexists. split; [vm_compute; reflexivity|]. split; [vm_compute; reflexivity|]. split; [vm_compute; reflexivity|]. split; vm_compute; reflexivity. Qed.
Print Assumptions C23_insert_refuted.
Theorem C23_wrap_refuted : exists F1 F2,
  answers (start ++ [wrap_text bad_text]) = Ok [None; None; None; Some ECharNotFound] /\
  saves true start = Ok F1 /\ saves true (start ++ [wrap_text bad_text]) = Ok F2 /\ F1 <> F2.
Proof.
  eexists. eexists. split; [vm_compute; reflexivity|]. split; [vm_compute; reflexivity|]. split; [vm_compute; reflexivity|].
  intros H. apply (f_equal (@List.length Z)) in H. vm_compute in H. discriminate H.
Qed.
Print Assumptions C23_wrap_refuted.

(** ** C37 *)

(** From a freshly opened document, with any other calls in between (but no other
    image calls): one image per distinct md5 sum; the placements, in call order,
    refer to the same image exactly for equal sums, and the image was made from a
    file with that sum. *)
Theorem C37_cached_once : forall w fuel s0 cs s log, s_cache s0 = Some [] ->
  forallb (fun c => match c with KOpen _ | KImg _ _ _ _ _ _ _ | KImg64 _ _ _ _ _ _ _ => false | _ => true end) cs = true ->
  history w fuel cs s0 = Ok (s, log) ->
  List.length (s_imgs s) = (List.length (s_imgs s0) + List.length (nodup bytes_dec (map md5 (cached log))))%nat /\
  exists ids, places s = places s0 ++ ids /\ List.length ids = List.length (cached log) /\
    (forall i j a b x y, nth_error (cached log) i = Some a -> nth_error (cached log) j = Some b ->
       nth_error ids i = Some x -> nth_error ids j = Some y -> (x = y <-> md5 a = md5 b)) /\
    (forall i a x, nth_error (cached log) i = Some a -> nth_error ids i = Some x ->
       exists im img, nth_error (s_imgs s) x = Some im /\ In img (cached log) /\ md5 img = md5 a /\ made w img (im_data im)).
Proof. exact cached_once. Qed.
Print Assumptions C37_cached_once.
Example C37_case : exists s, after [KOpen two_file; put_cached [1]; put_cached [2]; put_cached [1]] = Ok s /\
  List.length (s_imgs s) = 2%nat /\ places s = [0; 1; 0]%nat.
Proof. exact cached_case. Qed.

(** ** C41 *)

(** Whatever happens after Open: the height used for page k is the one page k had
    when the document was opened. *)
Theorem C41_height_at_open : forall w fuel raw s0 s1 cs s log,
  openFrom w fuel raw s0 = Ok (s1, None) ->
  history w fuel cs s1 = Ok (s, log) -> forallb (fun c => negb (is_open c)) cs = true ->
  exists ids, getPageObjIDs fuel (d_pdf (s_doc s1)) = Ok ids /\
    forall k id h, nth_error ids k = Some id -> media_height (w_float w) (objs (d_pdf (s_doc s1))) id h ->
      pageHeight s (Z.of_nat k + 1) = Ok h.
Proof. exact heights. Qed.
Print Assumptions C41_height_at_open.
(** Refuted after removing a page: page 1 now is the object with height 200, but
    100 is used. *)
Theorem C41_removed_refuted : exists s, after [KOpen two_file; KRemove 1] = Ok s /\
  getPageObjIDs 5 (d_pdf (s_doc s)) = Ok [5] /\ media_height whole (objs (d_pdf (s_doc s))) 5 (fofz 200) /\ pageHeight s 1 = Ok (fofz 100).
Proof.
  eexists. split; [vm_compute; reflexivity|]. split; [vm_compute; reflexivity|]. split; [|vm_compute; reflexivity].
  eexists. eexists. eexists. split; [vm_compute; reflexivity|]. split; [vm_compute; reflexivity|]. split; [vm_compute; reflexivity|].
  split; vm_compute; reflexivity.
Qed.
Print Assumptions C41_removed_refuted.

(** ** C42 *)

(** Which version is read and edited: the first one with the number, or the last
    one that has annotations. *)
Theorem C42_which : forall id os, getObj id os =
  match filter (fun o => oid o =? id) os with [] => Panic | o :: l => Ok (last (filter has_annots (o :: l)) o) end.
Proof. exact version_read. Qed.
Print Assumptions C42_which.
Theorem C42_one_version : forall os o, NoDup (map oid os) -> In o os -> getObj (oid o) os = Ok o.
Proof. exact one_version. Qed.
Print Assumptions C42_one_version.
(** Refuted: page object 3 was replaced by an update.  The table of the saved
    file points to the last version (C02), 500 high; the first, 792 high, is used. *)
Theorem C42_update_refuted : exists s pre o, after [KOpen updated_file] = Ok s /\
  objs (d_pdf (s_doc s)) = pre ++ [o] /\ oid o = 3 /\ getPageObjIDs 5 (d_pdf (s_doc s)) = Ok [3] /\
  media_height whole [o] 3 (fofz 500) /\ pageHeight s 1 = Ok (fofz 792) /\ getObj 3 (objs (d_pdf (s_doc s))) <> Ok o.
Proof.
  eexists. exists (map (fun o => mkObj (oid o) ([10] ++ odata o ++ [10])) sample_page). eexists. split; [vm_compute; reflexivity|].
  split; [cbn [d_pdf s_doc objs]; change (map (fun o => mkObj (oid o) ([10] ++ odata o ++ [10])) sample_page) with ltac:(let x := eval vm_compute in (map (fun o => mkObj (oid o) ([10] ++ odata o ++ [10])) sample_page) in exact x); cbn [app]; reflexivity|].
  split; [reflexivity|]. split; [vm_compute; reflexivity|]. split.
  - eexists. eexists. eexists. split; [vm_compute; reflexivity|]. split; [vm_compute; reflexivity|]. split; [vm_compute; reflexivity|].
    split; vm_compute; reflexivity.
  - split; [vm_compute; reflexivity|]. vm_compute. intros H. discriminate H.
Qed.
Print Assumptions C42_update_refuted.

(** ** C49 *)

(** Opening adds to what is there: inserted content, images, protection and all
    objects stay; only font names and the image cache start afresh. *)
Theorem C49_adds : forall w fuel raw s s', openFrom w fuel raw s = Ok (s', None) ->
  s_cont s' = s_cont s ++ [CLine false (fofz 0)] /\ s_imgs s' = s_imgs s /\ s_prot s' = s_prot s /\
  (exists new, objs (d_pdf (s_doc s')) = objs (d_pdf (s_doc s)) ++ new) /\
  s_names s' = Some [] /\ s_cache s' = Some [].
Proof. exact open_again. Qed.
Print Assumptions C49_adds.
Theorem C49_open_again_refuted : exists F1 F2,
  saves true [KOpen sample_file] = Ok F1 /\ saves true [KOpen sample_file; put_img [1] 1; KOpen sample_file] = Ok F2 /\
  contains (B" Do Q") F1 = false /\ contains (B" Do Q") F2 = true.
Proof. eexists. eexists. split; [vm_compute; reflexivity|]. split; [vm_compute; reflexivity|]. split; vm_compute; reflexivity. Qed.
Print Assumptions C49_open_again_refuted.
