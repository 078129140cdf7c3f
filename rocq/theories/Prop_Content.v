(** C12, C13, C14, C16: content streams of pages. *)
From Coq Require Import String List ZArith Lia Bool Permutation.
From Verif Require Import Base Output Props PropsSpec PdfData PagesSpec PagesProofs PagesEdit PagesFinal Crawl Inject CrawlProofs ContentSpec ContentProofs ContentFinal.
Open Scope Z_scope.
Open Scope list_scope.

(** One order of iteration for the witnesses: the order of insertion. *)
Definition ord_id : morder := fun _ _ l => l.
Lemma ord_id_fair : fair ord_id.
Proof. intros t A l. apply Permutation_refl. Qed.

(** A decoder for the samples: "zz" stands for "abc". *)
Definition zz : bytes -> res bytes := fun s => if beqb s (B"zz") then Ok (B"abc") else Err EOther.

Definition nl : bytes := [10].

(** Three pages: a plain stream, a compressed stream with its length in another
    object, and a page without content. *)
Definition csample : pdf := mkPdf 1 [
  mkObj 1 (B"<< /Type /Catalog /Pages 2 0 R >>");
  mkObj 2 (B"<< /Type /Pages /Kids [3 0 R 4 0 R 5 0 R] /Count 3 >>");
  mkObj 3 (B"<< /Type /Page /Parent 2 0 R /Contents 6 0 R >>");
  mkObj 4 (B"<< /Type /Page /Parent 2 0 R /Contents 7 0 R >>");
  mkObj 5 (B"<< /Type /Page /Parent 2 0 R >>");
  mkObj 6 (B"<< /Length 3 >> stream" ++ nl ++ B"xyz" ++ nl ++ B"endstream");
  mkObj 7 (B"<< /Length 8 0 R /Filter /FlateDecode >> stream" ++ nl ++ B"zz" ++ nl ++ B"endstream");
  mkObj 8 (B"2")].

Lemma csample_sources : Forall2 (source zz (objs csample)) [3; 4; 5] [Some (6, B"xyz"); Some (7, B"abc"); None].
Proof.
  assert (NO : forall ps k, getPropByKey k ps = None -> ~ has_key ps k) by (intros; apply get_none; auto).
  constructor; [|constructor; [|constructor; [|constructor]]].
  - eapply source_intro with (a := [mkProp (B"Type") []; mkProp (B"Page") []; mkProp (B"Parent") (B"2 0 R")]) (b := [])
      (head := B"<< /Length 3 >> ") (eol := nl) (t := nl) (u := []) (raw := B"xyz"); try (vm_compute; reflexivity).
    + left; reflexivity.
    + apply dec_direct with (v := B"3"); [apply value_iff|]; vm_compute; reflexivity.
    + cbn. lia.
    + apply dec_plain; apply NO; reflexivity.
  - eapply source_intro with (a := [mkProp (B"Type") []; mkProp (B"Page") []; mkProp (B"Parent") (B"2 0 R")]) (b := [])
      (head := B"<< /Length 8 0 R /Filter /FlateDecode >> ") (eol := nl) (t := nl) (u := []) (raw := B"zz"); try (vm_compute; reflexivity).
    + left; reflexivity.
    + apply dec_ref with (v := B"8 0 R") (id := 8) (o := mkObj 8 (B"2")); try (vm_compute; reflexivity).
      * apply value_iff. vm_compute. reflexivity.
      * apply get_version. vm_compute. reflexivity.
    + cbn. lia.
    + apply dec_flate; [exists []; cbn; auto|exists []; cbn; auto|reflexivity].
  - eapply src_none; [apply get_version; vm_compute; reflexivity|reflexivity|apply NO; reflexivity].
Qed.

Lemma csample_pages : page_list csample [3; 4; 5].
Proof. exists 3%nat. intros f L. do 3 (destruct f as [|f]; [lia|]). reflexivity. Qed.

(** C13. After SaveTo the content stream of page k is its old (decoded)
    content, a newline, and then the drawing operators of exactly the inserts
    made for page k in the order of the calls; other objects are unchanged.

    The full statement is for all documents.  Proved for documents in which
    every page has no Contents, or one Contents entry that refers to a stream
    with the right length that is plain or Flate compressed and does not start
    with white space; for all iteration orders, decoders and memory contents. *)
Theorem C13_inserts_partial : forall ord inflate p ids srcs ins, fair ord -> page_list p ids ->
  Forall2 (source inflate (objs p)) ids srcs ->
  exists f0, forall f beyond, (f0 <= f)%nat ->
    exists p', injectContent ord inflate beyond f p (calls ins) = Ok p' /\ content_effect p p' srcs ins.
Proof. exact content_inserted. Qed.
Print Assumptions C13_inserts_partial.

(** Streams no page with an insert refers to do not change. *)
Theorem C13_elsewhere_partial : forall p p' srcs ins id o, content_effect p p' srcs ins ->
  (forall k s, ~ writes srcs ins k id s) -> (version (objs p) id o <-> version (objs p') id o).
Proof. exact effect_elsewhere. Qed.
Print Assumptions C13_elsewhere_partial.

(** The stream the saved file shows for the page. *)
Theorem C13_page_stream_partial : forall p p' srcs ins k cid s co, content_effect p p' srcs ins -> writes srcs ins k cid s ->
  (forall k' s', k < k' -> ~ writes srcs ins k' cid s') -> version (objs p) cid co -> ~ annotated co ->
  exists co', version (objs p') cid co' /\ plain_stream (odata co') (s ++ [10] ++ drawn ins k).
Proof. exact effect_written. Qed.
Print Assumptions C13_page_stream_partial.

Definition cins : inserts := [(2, B"q"); (1, B"r"); (2, B"Q"); (3, B"lost")].
Example C13_sample : page_list csample [3; 4; 5] /\
  Forall2 (source zz (objs csample)) [3; 4; 5] [Some (6, B"xyz"); Some (7, B"abc"); None] /\
  injectContent ord_id zz (fun _ => []) 5 csample (calls cins) = Ok (mkPdf 1 (firstn 5 (objs csample) ++ [
    mkObj 6 (B"<<" ++ nl ++ B"/Length 5" ++ nl ++ B">>" ++ nl ++ B"stream" ++ nl ++ B"xyz" ++ nl ++ B"rendstream");
    mkObj 7 (B"<<" ++ nl ++ B"/Length 6" ++ nl ++ B">>" ++ nl ++ B"stream" ++ nl ++ B"abc" ++ nl ++ B"qQendstream");
    mkObj 8 (B"2")])).
Proof. split; [exact csample_pages|]. split; [exact csample_sources|]. vm_compute. reflexivity. Qed.

(** The full statement is false.  A filter in the equivalent form of an array
    is not seen: the compressed bytes become plain content. *)
Definition one_page (contents : bytes) (streams : list obj) : pdf := mkPdf 1 ([
  mkObj 1 (B"<< /Type /Catalog /Pages 2 0 R >>");
  mkObj 2 (B"<< /Type /Pages /Kids [3 0 R] /Count 1 >>");
  mkObj 3 (B"<< /Type /Page /Parent 2 0 R " ++ contents ++ B" >>")] ++ streams).

Theorem C13_filter_array_refuted : exists p raw, page_list p [3] /\
  getObj 4 (objs p) = Ok (mkObj 4 (B"<< /Length 2 /Filter [/FlateDecode] >> stream" ++ nl ++ raw ++ nl ++ B"endstream")) /\
  forall inflate f, (2 <= f)%nat -> exists p' co, injectContent ord_id inflate (fun _ => []) f p (calls [(1, B"q")]) = Ok p' /\
    version (objs p') 4 co /\ plain_stream (odata co) (raw ++ nl ++ B"q").
Proof.
  exists (one_page (B"/Contents 4 0 R") [mkObj 4 (B"<< /Length 2 /Filter [/FlateDecode] >> stream" ++ nl ++ B"zz" ++ nl ++ B"endstream")]), (B"zz").
  split; [exists 2%nat; intros f L; do 2 (destruct f as [|f]; [lia|]); reflexivity|]. split; [vm_compute; reflexivity|].
  intros inflate f L. do 2 (destruct f as [|f]; [lia|]). eexists _, _. split; [vm_compute; reflexivity|].
  split; [apply get_version; vm_compute; reflexivity|].
  apply plain_stream_intro with (head := B"<<" ++ nl ++ B"/Length 4" ++ nl ++ B">>" ++ nl); vm_compute; reflexivity.
Qed.
Print Assumptions C13_filter_array_refuted.

(** Other filters are dropped: the encoded bytes become plain content. *)
Theorem C13_other_filter_refuted : exists p raw, page_list p [3] /\
  getObj 4 (objs p) = Ok (mkObj 4 (B"<< /Length 4 /Filter /ASCIIHexDecode >> stream" ++ nl ++ raw ++ nl ++ B"endstream")) /\
  forall inflate f, (2 <= f)%nat -> exists p' co, injectContent ord_id inflate (fun _ => []) f p (calls [(1, B"q")]) = Ok p' /\
    version (objs p') 4 co /\ plain_stream (odata co) (raw ++ nl ++ B"q").
Proof.
  exists (one_page (B"/Contents 4 0 R") [mkObj 4 (B"<< /Length 4 /Filter /ASCIIHexDecode >> stream" ++ nl ++ B"51>>" ++ nl ++ B"endstream")]), (B"51>>").
  split; [exists 2%nat; intros f L; do 2 (destruct f as [|f]; [lia|]); reflexivity|]. split; [vm_compute; reflexivity|].
  intros inflate f L. do 2 (destruct f as [|f]; [lia|]). eexists _, _. split; [vm_compute; reflexivity|].
  split; [apply get_version; vm_compute; reflexivity|].
  apply plain_stream_intro with (head := B"<<" ++ nl ++ B"/Length 6" ++ nl ++ B">>" ++ nl); vm_compute; reflexivity.
Qed.
Print Assumptions C13_other_filter_refuted.

(** With an array of content streams the insert comes after the first stream,
    before the others. *)
Theorem C13_contents_array_refuted : exists p, page_list p [3] /\
  (exists o ps, version (objs p) 3 o /\ entries o ps /\ value ps (B"Contents") (B"[4 0 R 5 0 R]")) /\
  forall inflate f, (2 <= f)%nat -> exists p' co, injectContent ord_id inflate (fun _ => []) f p (calls [(1, B"q")]) = Ok p' /\
    version (objs p') 4 co /\ plain_stream (odata co) (B"a" ++ nl ++ B"q") /\
    forall o, version (objs p) 5 o <-> version (objs p') 5 o.
Proof.
  exists (one_page (B"/Contents [4 0 R 5 0 R]") [mkObj 4 (B"<< /Length 1 >> stream" ++ nl ++ B"a" ++ nl ++ B"endstream");
    mkObj 5 (B"<< /Length 1 >> stream" ++ nl ++ B"b" ++ nl ++ B"endstream")]).
  split; [exists 2%nat; intros f L; do 2 (destruct f as [|f]; [lia|]); reflexivity|].
  split; [eexists _, _; split; [apply get_version; vm_compute; reflexivity|]; split; [reflexivity|apply value_iff; reflexivity]|].
  intros inflate f L. do 2 (destruct f as [|f]; [lia|]). eexists _, _. split; [vm_compute; reflexivity|].
  split; [apply get_version; vm_compute; reflexivity|]. split.
  - apply plain_stream_intro with (head := B"<<" ++ nl ++ B"/Length 3" ++ nl ++ B">>" ++ nl); vm_compute; reflexivity.
  - intros o. split; intros V; apply version_get in V; apply get_version; vm_compute in V |- *; exact V.
Qed.
Print Assumptions C13_contents_array_refuted.

(** Inserts on a page without content, and on a page that does not exist, are
    lost without an error. *)
Theorem C13_lost_inserts_refuted : exists p, page_list p [3] /\
  forall inflate f ins, (2 <= f)%nat -> injectContent ord_id inflate (fun _ => []) f p (calls ins) = Ok p.
Proof.
  exists (one_page [] []).
  split; [exists 2%nat; intros f L; do 2 (destruct f as [|f]; [lia|]); reflexivity|].
  intros inflate f ins L. do 2 (destruct f as [|f]; [lia|]). unfold injectContent.
  destruct (pageBuffs_ok ins []) as (m & E & _). rewrite E. vm_compute. reflexivity.
Qed.
Print Assumptions C13_lost_inserts_refuted.

(** C14. Every content stream the library writes declares in Length exactly the
    number of bytes of the stream ... *)
Theorem C14_length : forall s, plain_stream (content_object s) s.
Proof. exact content_plain. Qed.
Print Assumptions C14_length.

(** ... and reading the object back gives those bytes.  Full statement: for all
    bytes.  Proved when the content does not start with white space. *)
Theorem C14_read_back_partial : forall os d body beyond, plain_stream d body -> plain_start body -> blen body <= int64_max ->
  streamLength os d = Ok (blen body) /\ rawStream beyond d (blen body) = Ok body.
Proof. exact read_back. Qed.
Print Assumptions C14_read_back_partial.

(** It is false in general, e.g. for the content of an empty page to which
    something was added: the newline is dropped and bytes of the keyword
    "endstream" are read instead. *)
Theorem C14_white_space_refuted : exists body,
  rawStream [] (content_object body) (blen body) = Ok (B"q Qe").
Proof. exists (nl ++ B"q Q"). vm_compute. reflexivity. Qed.
Print Assumptions C14_white_space_refuted.

Theorem C14_two_saves_refuted : exists p, page_list p [3] /\
  forall inflate f, (2 <= f)%nat -> exists p1 p2 co, injectContent ord_id inflate (fun _ => []) f p (calls [(1, B"q Q")]) = Ok p1 /\
    injectContent ord_id inflate (fun _ => []) f p1 (calls [(1, B"r")]) = Ok p2 /\
    version (objs p2) 4 co /\ plain_stream (odata co) (B"q Qe" ++ nl ++ B"r").
Proof.
  exists (one_page (B"/Contents 4 0 R") [mkObj 4 (B"<< /Length 0 >> stream" ++ nl ++ nl ++ B"endstream")]).
  split; [exists 2%nat; intros f L; do 2 (destruct f as [|f]; [lia|]); reflexivity|].
  intros inflate f L. do 2 (destruct f as [|f]; [lia|]). eexists _, _, _. split; [vm_compute; reflexivity|].
  split; [vm_compute; reflexivity|]. split; [apply get_version; vm_compute; reflexivity|].
  apply plain_stream_intro with (head := B"<<" ++ nl ++ B"/Length 6" ++ nl ++ B">>" ++ nl); vm_compute; reflexivity.
Qed.
Print Assumptions C14_two_saves_refuted.

Example C14_sample : streamLength [] (content_object (B"q" ++ nl ++ B"endstream ")) = Ok 12 /\
  rawStream (B"junk") (content_object (B"q" ++ nl ++ B"endstream ")) 12 = Ok (B"q" ++ nl ++ B"endstream ").
Proof. split; vm_compute; reflexivity. Qed.

(** C12. After DuplicatePageAfter, what is inserted on the copy does not change
    the content stream of the source page (nor of any other old page) and vice
    versa.  [copy] is the number of the new page. *)
Theorem C12_independent_copy : forall ord inflate p rid ts f k pos srcs, fair ord ->
  editable p rid ts -> (depth (Node rid ts) <= f)%nat ->
  let ids := leaves (Node rid ts) in let n := Z.of_nat (List.length ids) in
  1 <= k <= n -> - n <= pos <= n - 1 -> numbers_left p 2 ->
  copyable (objs p) (nth (Z.to_nat (k - 1)) ids 0) ->
  Forall2 (source inflate (objs p)) ids srcs -> (forall cid s, In (Some (cid, s)) srcs -> cid <> rid) ->
  exists p' np nc c s, let copy := Z.of_nat (place n pos) + 1 in
    duplicatePageAfter f p k pos = Ok (p', None) /\
    page_list p' (firstn (place n pos) ids ++ np :: skipn (place n pos) ids) /\
    nth_error srcs (Z.to_nat (k - 1)) = Some (Some (c, s)) /\
    source inflate (objs p') np (Some (nc, s)) /\
    forall ins, exists f0, forall f1 beyond, (f0 <= f1)%nat ->
      exists p'', injectContent ord inflate beyond f1 p' (calls ins) = Ok p'' /\
        ((forall i, In i ins -> fst i = copy) ->
           forall cid s' o, In (Some (cid, s')) srcs -> (version (objs p') cid o <-> version (objs p'') cid o)) /\
        ((forall i, In i ins -> fst i <> copy) ->
           forall o, version (objs p') nc o <-> version (objs p'') nc o).
Proof. exact duplicate_independent. Qed.
Print Assumptions C12_independent_copy.

Definition dupd : pdf := match duplicatePageAfter 3 csample 1 0 with Ok (p', _) => p' | _ => csample end.
Example C12_sample : duplicatePageAfter 3 csample 1 0 = Ok (dupd, None) /\ getPageObjIDs 5 dupd = Ok [3; 10; 4; 5] /\
  injectContent ord_id zz (fun _ => []) 5 dupd (calls [(2, B"q")]) = Ok (mkPdf 1 (firstn 8 (objs dupd) ++ [
    mkObj 9 (B"<<" ++ nl ++ B"/Length 5" ++ nl ++ B">>" ++ nl ++ B"stream" ++ nl ++ B"xyz" ++ nl ++ B"qendstream")] ++
    skipn 9 (objs dupd))).
Proof. repeat split; vm_compute; reflexivity. Qed.

(** C16. Pages that share a content stream keep their own inserts: false, the
    inserts of the first page are lost. *)
Definition shared : pdf := mkPdf 1 [
  mkObj 1 (B"<< /Type /Catalog /Pages 2 0 R >>");
  mkObj 2 (B"<< /Type /Pages /Kids [3 0 R 4 0 R] /Count 2 >>");
  mkObj 3 (B"<< /Type /Page /Parent 2 0 R /Contents 5 0 R >>");
  mkObj 4 (B"<< /Type /Page /Parent 2 0 R /Contents 5 0 R >>");
  mkObj 5 (B"<< /Length 1 >> stream" ++ nl ++ B"a" ++ nl ++ B"endstream")].

Theorem C16_shared_refuted : exists p, page_list p [3; 4] /\
  forall inflate f, (2 <= f)%nat -> exists p',
    injectContent ord_id inflate (fun _ => []) f p (calls [(1, B"FIRST"); (2, B"SECOND")]) = Ok p' /\
    forall o, In o (objs p') -> forall a b, odata o <> a ++ B"FIRST" ++ b.
Proof.
  exists shared. split; [exists 2%nat; intros f L; do 2 (destruct f as [|f]; [lia|]); reflexivity|].
  intros inflate f L. do 2 (destruct f as [|f]; [lia|]). eexists. split; [vm_compute; reflexivity|].
  assert (C : forall d a b, contains (B"FIRST") d = false -> d <> a ++ B"FIRST" ++ b).
  { intros d a b H E. apply BaseProofs.contains_false in H. apply (H (List.length a)). exists a, b. auto. }
  intros o H a b. cbn [objs In] in H. repeat (destruct H as [<-|H]; [apply C; vm_compute; reflexivity|]). destruct H.
Qed.
Print Assumptions C16_shared_refuted.

(** What holds: if a stream is the content of several pages with inserts, the
    saved stream has the old content and the inserts of the last of them (so
    nothing is lost when only one page that uses the stream has inserts). *)
Theorem C16_last_page_partial : forall ord inflate p ids srcs ins k cid s co, fair ord -> page_list p ids ->
  Forall2 (source inflate (objs p)) ids srcs -> writes srcs ins k cid s ->
  (forall k' s', k < k' -> ~ writes srcs ins k' cid s') -> version (objs p) cid co -> ~ annotated co ->
  exists f0, forall f beyond, (f0 <= f)%nat ->
    exists p' co', injectContent ord inflate beyond f p (calls ins) = Ok p' /\ version (objs p') cid co' /\
      plain_stream (odata co') (s ++ [10] ++ drawn ins k).
Proof. exact last_page_wins. Qed.
Print Assumptions C16_last_page_partial.

Example C16_sample : exists co, injectContent ord_id zz (fun _ => []) 5 shared (calls [(1, B"FIRST"); (2, B"SECOND")]) =
    Ok (mkPdf 1 (firstn 4 (objs shared) ++ [co])) /\ plain_stream (odata co) (B"a" ++ nl ++ B"SECOND").
Proof.
  eexists. split; [vm_compute; reflexivity|].
  apply plain_stream_intro with (head := B"<<" ++ nl ++ B"/Length 8" ++ nl ++ B">>" ++ nl); vm_compute; reflexivity.
Qed.
