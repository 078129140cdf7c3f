(** C05 and C17: opening what was saved, and opening anything. *)
From Coq Require Import String List ZArith Lia Bool.
From Coq.Floats Require Import SpecFloat.
From Verif Require Import Base Output OutputSpec OutputProofs Props PdfData PagesSpec Float64 Parse ParseSpec ParseFinal ParsePages ParseCrash ParseCases.
Open Scope Z_scope.
Open Scope list_scope.

(** C05.  Whatever was saved (protected or not), opening gives the same catalog,
    and exactly the last versions of the saved objects, with their bodies up to
    white space around them, in the order of their numbers.  It is partial
    because the order is that of the numbers and older versions are gone
    ([C05_order_refuted], [C05_versions_refuted]). *)
Theorem C05_reopen_partial : forall float fuel os last rt en d r, 0 <= last -> 0 <= rt < 2 ^ 63 ->
  blen (toStream os last rt en) < 10 ^ 10 -> Forall plain_object (saved os last en) ->
  PDFParse float fuel (toStream os last rt en) nodoc = (d, r) ->
  root (d_pdf d) = rt /\ increasing 0 (map oid (objs (d_pdf d))) /\
  forall o', In o' (objs (d_pdf d)) <-> exists o, latest (saved os last en) o /\ 1 <= oid o <= saved_last last en /\ o' = stored o.
Proof. exact reopen. Qed.
Print Assumptions C05_reopen_partial.

(** With numbers in order the document is the same, and saving it again gives
    the same file. *)
Theorem C05_in_order : forall float fuel os last rt d r, 0 <= last -> 0 <= rt < 2 ^ 63 ->
  blen (toStream os last rt None) < 10 ^ 10 -> Forall plain_object os ->
  increasing 0 (map oid os) -> (forall o, In o os -> oid o <= last) ->
  PDFParse float fuel (toStream os last rt None) nodoc = (d, r) ->
  objs (d_pdf d) = map stored os /\ toStream (objs (d_pdf d)) last (root (d_pdf d)) None = toStream os last rt None.
Proof. exact reopen_in_order. Qed.
Print Assumptions C05_in_order.

(** The white space does not matter to the dictionary reader. *)
Theorem C05_same_entries : forall o, readProperties (odata (stored o)) = readProperties (odata o).
Proof. exact read_stored. Qed.
Print Assumptions C05_same_entries.

(** With distinct numbers in any order every number stands for the same object,
    the page list is the same, and the page sizes are those of the saved pages. *)
Theorem C05_same_pages : forall float fuel os last rt d r, 0 <= last -> 0 <= rt < 2 ^ 63 ->
  blen (toStream os last rt None) < 10 ^ 10 -> Forall plain_object os ->
  NoDup (map oid os) -> (forall o, In o os -> 1 <= oid o <= last) ->
  PDFParse float fuel (toStream os last rt None) nodoc = (d, r) ->
  (forall id, getObj id (objs (d_pdf d)) = do o <- getObj id os; Ok (stored o)) /\
  getPageObjIDs fuel (d_pdf d) = getPageObjIDs fuel (mkPdf rt os) /\
  (setPagesObj (mkPdf rt os) = Ok tt -> forall ids, getPageObjIDs fuel (mkPdf rt os) = Ok ids ->
     (d_sizes d, r) = page_sizes float os 0 ids []).
Proof. exact reopen_pages. Qed.
Print Assumptions C05_same_pages.

(** Saving what was opened and opening it again changes nothing more. *)
Theorem C05_stable : forall float fuel os last rt en d r d2 r2, 0 <= last -> 0 <= rt < 2 ^ 63 ->
  blen (toStream os last rt en) < 10 ^ 10 -> Forall plain_object (saved os last en) ->
  PDFParse float fuel (toStream os last rt en) nodoc = (d, r) ->
  let f2 := toStream (objs (d_pdf d)) (saved_last last en) rt None in
  blen f2 < 10 ^ 10 ->
  PDFParse float fuel f2 nodoc = (d2, r2) ->
  d_pdf d2 = d_pdf d.
Proof. exact reopen_stable. Qed.
Print Assumptions C05_stable.

(** Objects 1, 3, 2 come back as 1, 2, 3. *)
Definition shuffled : list obj := [mkObj 1 (B"<</Type/Catalog/Pages 2 0 R>>");
  mkObj 3 (B" <</Type/Page/MediaBox[0 0 10 20]/Parent 2 0 R>> "); mkObj 2 (B"<</Type/Pages/Count 1/Kids[3 0 R]>>")].
Theorem C05_order_refuted : exists os last rt d, Forall plain_object os /\ NoDup (map oid os) /\ (forall o, In o os -> 1 <= oid o <= last) /\
  PDFParse whole 5 (toStream os last rt None) nodoc = (d, Ok tt) /\ map oid (objs (d_pdf d)) <> map oid os.
Proof.
  exists shuffled, 3, 1. eexists. split; [apply plain_check; vm_compute; reflexivity|].
  split; [vm_compute; repeat (constructor; [cbn; intuition lia|]); constructor|].
  split; [intros o Ho; cbn in Ho; repeat destruct Ho as [<-|Ho]; cbn; try lia; destruct Ho|].
  split; [vm_compute; reflexivity|]. vm_compute. discriminate.
Qed.
Print Assumptions C05_order_refuted.

(** Two versions of object 3 come back as one. *)
Theorem C05_versions_refuted : exists os last rt d, Forall plain_object os /\ (forall o, In o os -> 1 <= oid o <= last) /\
  PDFParse whole 5 (toStream os last rt None) nodoc = (d, Ok tt) /\ List.length (objs (d_pdf d)) <> List.length os.
Proof.
  exists (shuffled ++ [mkObj 3 (B"<</Type/Page/MediaBox[0 0 30 40]/Parent 2 0 R>>")]), 3, 1. eexists.
  split; [apply plain_check; vm_compute; reflexivity|].
  split; [intros o Ho; cbn in Ho; repeat destruct Ho as [<-|Ho]; cbn; try lia; destruct Ho|].
  split; [vm_compute; reflexivity|]. vm_compute. discriminate.
Qed.
Print Assumptions C05_versions_refuted.

(** The hypotheses hold of the sample page and the document opens. *)
Example C05_sample : Forall plain_object sample_page /\ NoDup (map oid sample_page) /\
  exists d, PDFParse whole 5 (toStream sample_page 5 1 None) nodoc = (d, Ok tt) /\ d_sizes d <> [] /\
    getPageObjIDs 5 (d_pdf d) = Ok [3].
Proof.
  split; [apply plain_check; vm_compute; reflexivity|].
  split; [vm_compute; repeat (constructor; [cbn; intuition lia|]); constructor|].
  eexists. split; [vm_compute; reflexivity|]. split; [discriminate|vm_compute; reflexivity].
Qed.

(** C17.  Opening any bytes gives a document or an error, unless one of the
    listed defects is in the file: "startxref" before the end of "trailer", a
    row pointing behind the end, a catalog or page tree object that is not
    there, a list of kids with a number left over, a page without MediaBox.  The
    full statement has no exceptions; each exception is real (below). *)
Theorem C17_open_partial : forall float fuel raw d, (forall t, float t <> Panic) ->
  PDFParse float fuel raw nodoc = (d, Panic) -> crash raw (d_xrefs d) (d_pdf d).
Proof. exact open_crash. Qed.
Print Assumptions C17_open_partial.

Theorem C17_rows_total : forall raw xs, snd (parseXref raw xs) <> Panic.
Proof. exact parseXref_total. Qed.
Print Assumptions C17_rows_total.

Theorem C17_reference_total : forall s, readObjID s <> Panic /\ readObjID s <> Diverge.
Proof. exact readObjID_total. Qed.
Print Assumptions C17_reference_total.

Theorem C17_startxref_refuted : exists raw d, PDFParse whole 5 raw nodoc = (d, Panic) /\
  exists t s, first_at (B"trailer") raw t /\ first_at (B"startxref") raw s /\ s < t + 7.
Proof.
  exists early_startxref. eexists. split; [vm_compute; reflexivity|].
  apply parseTrailer_crash. vm_compute. reflexivity.
Qed.
Print Assumptions C17_startxref_refuted.

Theorem C17_row_refuted : exists raw d n, PDFParse whole 5 raw nodoc = (d, Panic) /\ In (n, B"n") (d_xrefs d) /\ blen raw < n.
Proof.
  exists far_row. eexists. exists 99999. split; [vm_compute; reflexivity|]. split; [left; reflexivity|vm_compute; reflexivity].
Qed.
Print Assumptions C17_row_refuted.

Theorem C17_catalog_refuted : exists os d, PDFParse whole 5 (toStream os 2 7 None) nodoc = (d, Panic) /\ ~ In (root (d_pdf d)) (map oid (objs (d_pdf d))).
Proof.
  exists lost_kid. eexists. split; [vm_compute; reflexivity|]. intros H. vm_compute in H. repeat destruct H as [H|H]; try discriminate; auto.
Qed.
Print Assumptions C17_catalog_refuted.

Theorem C17_kid_refuted : exists os d, PDFParse whole 5 (toStream os 2 1 None) nodoc = (d, Panic) /\ os = lost_kid.
Proof. exists lost_kid. eexists. split; [vm_compute; reflexivity|reflexivity]. Qed.
Print Assumptions C17_kid_refuted.

Theorem C17_odd_kids_refuted : exists os d, PDFParse whole 5 (toStream os 3 1 None) nodoc = (d, Panic) /\ os = odd_kids.
Proof. exists odd_kids. eexists. split; [vm_compute; reflexivity|reflexivity]. Qed.
Print Assumptions C17_odd_kids_refuted.

Theorem C17_mediabox_refuted : exists os d, PDFParse whole 5 (toStream os 3 1 None) nodoc = (d, Panic) /\ os = no_box.
Proof. exists no_box. eexists. split; [vm_compute; reflexivity|reflexivity]. Qed.
Print Assumptions C17_mediabox_refuted.

(** A page tree node that is its own kid: no recursion depth is enough. *)
Theorem C17_cycle_refuted : exists raw, forall fuel d r, PDFParse whole fuel raw nodoc = (d, r) -> r = Diverge.
Proof. exists (toStream own_kid 2 1 None). exact own_kid_loops. Qed.
Print Assumptions C17_cycle_refuted.
