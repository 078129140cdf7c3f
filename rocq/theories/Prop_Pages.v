(** C07-C11, C18: page list, page removal, page duplication. *)
From Coq Require Import String List ZArith Lia Bool.
From Verif Require Import Base Output Props PropsSpec PdfData PagesSpec PagesProofs PagesEdit PagesFinal.
Open Scope Z_scope.
Open Scope list_scope.

(** A document with three pages in a tree of depth three. *)
Definition sample : pdf := mkPdf 1 [
  mkObj 1 (B"<< /Type /Catalog /Pages 2 0 R >>");
  mkObj 2 (B"<< /Type /Pages /Kids [3 0 R 4 0 R] /Count 3 >>");
  mkObj 3 (B"<< /Type /Page /Parent 2 0 R /Contents 7 0 R >>");
  mkObj 4 (B"<< /Type /Pages /Parent 2 0 R /Kids [5 0 R 6 0 R] /Count 2 >>");
  mkObj 5 (B"<< /Type /Page /Parent 4 0 R /Contents 8 0 R >>");
  mkObj 6 (B"<< /Type /Page /Parent 4 0 R /Contents 9 0 R >>");
  mkObj 7 (B"<< /Length 1 >> stream a endstream");
  mkObj 8 (B"<< /Length 1 >> stream b endstream");
  mkObj 9 (B"<< /Length 1 >> stream c endstream")].
Definition sample_tree : tree := Node 2 [Leaf 3; Node 4 [Leaf 5; Leaf 6]].

Lemma sample_holds : holds (objs sample) sample_tree.
Proof.
  assert (L : forall id, In id [3; 5; 6] -> holds (objs sample) (Leaf id)).
  { intros id H. cbn in H.
    repeat (destruct H as [<-|H]; [eapply h_leaf; [apply get_version; vm_compute; reflexivity|reflexivity|
      split; [exists []; vm_compute; tauto|intros [(v & K) _]; vm_compute in K; intuition discriminate]]|]).
    destruct H. }
  assert (P : forall id ps v ts o, getObj id (objs sample) = Ok o -> readProperties (odata o) = Ok ps ->
     getPropByKey (B"Kids") ps = Some (mkProp (B"Kids") v) -> getPropByKey (B"Pages") ps <> None ->
     getPropByKey (B"Page") ps = None -> readObjIDs v = Ok (map tid ts) -> Forall (holds (objs sample)) ts ->
     holds (objs sample) (Node id ts)).
  { intros id ps v ts o H1 H2 H3 H4 H5 H6 H7. eapply h_node; [apply get_version, H1|exact H2| |left; exact H6|exact H7].
    split; [|split; [apply get_none; auto|apply value_iff; auto]].
    destruct (get_dec ps (B"Pages")) as [K|K]; auto. apply get_none in K. contradiction. }
  eapply P; try (vm_compute; reflexivity); try (vm_compute; discriminate).
  constructor; [apply L; cbn; auto|]. constructor; [|constructor].
  eapply P; try (vm_compute; reflexivity); try (vm_compute; discriminate).
  constructor; [apply L; cbn; auto|]. constructor; [apply L; cbn; auto|constructor].
Qed.

Lemma sample_page_tree : page_tree sample sample_tree.
Proof.
  split; [|exact sample_holds].
  eexists _, _, (B"2 0 R"). split; [apply get_version; vm_compute; reflexivity|]. split; [reflexivity|].
  split; [apply value_iff; reflexivity|reflexivity].
Qed.

Lemma sample_editable : editable sample 2 [Leaf 3; Node 4 [Leaf 5; Leaf 6]].
Proof.
  split; [exact sample_page_tree|]. split; [discriminate|]. split.
  - eexists _, _. split; [apply get_version; vm_compute; reflexivity|]. split; [reflexivity|]. split.
    + apply rewritable_check; reflexivity.
    + exists (B"3"). vm_compute. tauto.
  - apply Forall_forall. intros i H. vm_compute in H. unfold is_int. lia.
Qed.

(** C18.  The full statement has two parts.  The first, that the page list is
    the leaves of the tree, is proved for trees of every shape. *)
Theorem C18_page_list : forall p t, page_tree p t -> page_list p (leaves t).
Proof. exact page_list_leaves. Qed.
Print Assumptions C18_page_list.

Theorem C18_number_of_pages : forall p t f, page_tree p t -> (depth t <= f)%nat ->
  getNumberOfPage f p = Ok (Z.of_nat (List.length (leaves t))).
Proof. exact number_of_pages. Qed.
Print Assumptions C18_number_of_pages.

Example C18_sample : page_tree sample sample_tree /\ getPageObjIDs 3 sample = Ok [3; 5; 6].
Proof. split; [exact sample_page_tree|reflexivity]. Qed.

(** The second, that the traversal ends on every document, is false: a node that
    is its own kid. *)
Theorem C18_cycle_refuted : exists p, forall f, getPageObjIDs f p = Diverge.
Proof.
  exists (mkPdf 1 [mkObj 1 (B"<< /Pages 2 0 R >>"); mkObj 2 (B"<< /Type /Pages /Kids [2 0 R] >>")]).
  assert (H : forall f, visit f [mkObj 1 (B"<< /Pages 2 0 R >>"); mkObj 2 (B"<< /Type /Pages /Kids [2 0 R] >>")] 2 = Diverge).
  { induction f as [|f IH]; [reflexivity|]. 
    change (visit (S f) [mkObj 1 (B"<< /Pages 2 0 R >>"); mkObj 2 (B"<< /Type /Pages /Kids [2 0 R] >>")] 2)
      with (bind (visit f [mkObj 1 (B"<< /Pages 2 0 R >>"); mkObj 2 (B"<< /Type /Pages /Kids [2 0 R] >>")] 2)
              (fun a => bind (Ok []) (fun b => Ok (a ++ b)))).
    rewrite IH. reflexivity. }
  intros f. exact (H f).
Qed.
Print Assumptions C18_cycle_refuted.

(** C07 *)
Theorem C07_remove_page : forall p rid ts f k, editable p rid ts -> (depth (Node rid ts) <= f)%nat ->
  let ids := leaves (Node rid ts) in let n := Z.of_nat (List.length ids) in
  1 <= k <= n ->
  exists p', removePage f p k = Ok (p', None) /\
    page_list p' (firstn (Z.to_nat (k - 1)) ids ++ skipn (Z.to_nat k) ids) /\
    page_count p' rid (n - 1) /\ edits p p' rid [].
Proof. exact remove_page. Qed.
Print Assumptions C07_remove_page.

Example C07_sample : editable sample 2 [Leaf 3; Node 4 [Leaf 5; Leaf 6]] /\
  match removePage 3 sample 2 with
  | Ok (p', None) => getPageObjIDs 3 p' = Ok [3; 6] /\
      getObj 2 (objs p') = Ok (mkObj 2 (B"<<" ++ [10] ++ B"/Type /Pages /Kids [3 0 R 6 0 R ]/Count 2>>" ++ [10]))
  | _ => False
  end.
Proof. split; [exact sample_editable|vm_compute; auto]. Qed.

(** C08.  Full statement: for 1 <= k <= n the page kept is page k.  False: page
    k+1 is kept, and the call panics for k = n. *)
Theorem C08_remove_others_partial : forall p rid ts f k, editable p rid ts -> (depth (Node rid ts) <= f)%nat ->
  let ids := leaves (Node rid ts) in let n := Z.of_nat (List.length ids) in
  0 <= k < n ->
  exists p', removeOtherPages f p k = Ok (p', None) /\
    page_list p' [nth (Z.to_nat k) ids 0] /\ page_count p' rid 1 /\ edits p p' rid [].
Proof. exact remove_others. Qed.
Print Assumptions C08_remove_others_partial.

Theorem C08_remove_others_refuted : exists p rid ts p', editable p rid ts /\
  leaves (Node rid ts) = [3; 5; 6] /\ removeOtherPages 3 p 1 = Ok (p', None) /\
  getPageObjIDs 3 p' = Ok [5] /\ removeOtherPages 3 p 3 = Panic.
Proof.
  exists sample, 2, [Leaf 3; Node 4 [Leaf 5; Leaf 6]].
  eexists. split; [exact sample_editable|]. split; [reflexivity|]. split; [vm_compute; reflexivity|].
  split; vm_compute; reflexivity.
Qed.
Print Assumptions C08_remove_others_refuted.

Theorem C08_last_page_panics : forall p t f, page_tree p t -> (depth t <= f)%nat ->
  removeOtherPages f p (Z.of_nat (List.length (leaves t))) = Panic.
Proof. exact remove_others_last_panics. Qed.
Print Assumptions C08_last_page_panics.

(** C09 *)
Theorem C09_duplicate_page : forall p rid ts f k pos, editable p rid ts -> (depth (Node rid ts) <= f)%nat ->
  let ids := leaves (Node rid ts) in let n := Z.of_nat (List.length ids) in
  1 <= k <= n -> - n <= pos <= n - 1 -> numbers_left p 2 ->
  copyable (objs p) (nth (Z.to_nat (k - 1)) ids 0) ->
  exists p' o ps c co, version (objs p) (nth (Z.to_nat (k - 1)) ids 0) o /\ entries o ps /\
    value ps (B"Contents") c /\ (exists i, readObjID c = Ok i /\ version (objs p) i co) /\
    exists no nc ps', duplicatePageAfter f p k pos = Ok (p', None) /\
      page_list p' (firstn (place n pos) ids ++ oid no :: skipn (place n pos) ids) /\
      page_count p' rid (n + 1) /\ edits p p' rid [nc; no] /\
      (forall q, In q (objs p) -> oid q <> oid no /\ oid q <> oid nc) /\ oid no <> oid nc /\
      version (objs p') (oid no) no /\ entries no ps' /\
      value ps' (B"Contents") (itoa (oid nc) ++ B" 0 R") /\
      (forall k v, k <> B"Contents" -> (value ps' k v <-> value ps k v)) /\
      version (objs p') (oid nc) nc /\ odata nc = odata co.
Proof. exact duplicate_page. Qed.
Print Assumptions C09_duplicate_page.

(** A page whose Contents entry is missing or is not one reference (an array of
    streams, say) is refused and nothing changes. *)
Theorem C09_refusal : forall p t f k pos, page_tree p t -> (depth t <= f)%nat ->
  1 <= k <= Z.of_nat (List.length (leaves t)) ->
  forall o ps, version (objs p) (nth (Z.to_nat (k - 1)) (leaves t) 0) o -> entries o ps ->
  (~ has_key ps (B"Contents") -> duplicatePageAfter f p k pos = Ok (p, Some ENoContents)) /\
  (forall v e, value ps (B"Contents") v -> readObjID v = Err e -> duplicatePageAfter f p k pos = Ok (p, Some e)).
Proof. exact duplicate_no_contents. Qed.
Print Assumptions C09_refusal.

Lemma sample_copyable : forall id, In id [3; 5; 6] -> copyable (objs sample) id.
Proof.
  intros id H. cbn in H.
  repeat (destruct H as [<-|H]; [
    eexists _, _, _, _, _; split; [apply get_version; vm_compute; reflexivity|];
    split; [reflexivity|]; split; [apply rewritable_check; reflexivity|];
    split; [apply value_iff; reflexivity|]; split; [vm_compute; reflexivity|apply get_version; vm_compute; reflexivity]|]).
  destruct H.
Qed.

(** The full statement asks for the same entries whatever the page dictionary
    holds.  A byte above 127 in it is doubled in the copy (see C06). *)
Theorem C09_non_ascii_refuted : exists p p' o o' ps ps', removePage 3 p 2 = Ok (p, Some ENoPageRemove) /\
  duplicatePageAfter 3 p 1 0 = Ok (p', None) /\ getPageObjIDs 3 p' = Ok [3; 5] /\
  getObj 3 (objs p') = Ok o /\ getObj 5 (objs p') = Ok o' /\
  readProperties (odata o) = Ok ps /\ readProperties (odata o') = Ok ps' /\
  getPropByKey (B"T") ps <> getPropByKey (B"T") ps'.
Proof.
  exists (mkPdf 1 [mkObj 1 (B"<< /Pages 2 0 R >>"); mkObj 2 (B"<< /Type /Pages /Kids [3 0 R] /Count 1 >>");
    mkObj 3 (B"<< /Type /Page /T (" ++ [233] ++ B") /Contents 3 0 R >>")]).
  do 5 eexists. repeat (split; [vm_compute; reflexivity|]). vm_compute. discriminate.
Qed.
Print Assumptions C09_non_ascii_refuted.

Example C09_sample : copyable (objs sample) 3 /\ numbers_left sample 2 /\
  match duplicatePageAfter 3 sample 1 (-2) with
  | Ok (p', None) => getPageObjIDs 3 p' = Ok [3; 5; 11; 6] /\
      getObj 10 (objs p') = Ok (mkObj 10 (B"<< /Length 1 >> stream a endstream")) /\
      getObj 11 (objs p') = Ok (mkObj 11 (B"<<" ++ [10] ++ B"/Type /Page /Parent 2 0 R/Contents 10 0 R>>" ++ [10]))
  | _ => False
  end.
Proof.
  split; [apply sample_copyable; cbn; auto|]. split; [|vm_compute; auto].
  intros o H. vm_compute in H. repeat (destruct H as [<-|H]; [cbn; lia|]). destruct H.
Qed.

(** C10 *)
Theorem C10_page_operations : forall os f p rid ts vs, (depth (Node rid ts) <= f)%nat ->
  let ids := leaves (Node rid ts) in
  editable p rid ts -> NoDup ids -> Forall2 (shows p rid) ids vs -> Forall (copyable (objs p)) ids ->
  numbers_left p (2 * Z.of_nat (List.length os)) -> 2 * Z.of_nat (List.length os) < 2 ^ 63 ->
  os <> [] -> in_range (Z.of_nat (List.length ids)) os ->
  exists p' ids', calls f p os p' /\ page_list p' ids' /\ NoDup ids' /\
    Forall2 (shows p' rid) ids' (list_ops os vs) /\
    getNumberOfPage f p' = Ok (Z.of_nat (List.length (list_ops os vs))) /\
    page_count p' rid (Z.of_nat (List.length (list_ops os vs))).
Proof. exact page_ops. Qed.
Print Assumptions C10_page_operations.

Example C10_sample :
  in_range 3 [Dup 1 (-1); Rm 1; Rm 2] /\
  list_ops [Dup 1 (-1); Rm 1; Rm 2] ["a"; "b"; "c"]%string = ["b"; "a"]%string /\
  exists vs, Forall2 (shows sample 2) [3; 5; 6] vs /\ map fst vs =
    [B"<< /Length 1 >> stream a endstream"; B"<< /Length 1 >> stream b endstream"; B"<< /Length 1 >> stream c endstream"].
Proof.
  split; [cbn; lia|]. split; [reflexivity|].
  eexists [(_, _); (_, _); (_, _)]. split; [|reflexivity].
  repeat (constructor; [
    eexists _, _, _, _, _; split; [apply get_version; vm_compute; reflexivity|];
    split; [reflexivity|]; split; [apply value_iff; reflexivity|]; split; [vm_compute; reflexivity|];
    split; [discriminate|]; split; [apply get_version; vm_compute; reflexivity|reflexivity]|]).
  constructor.
Qed.

(** C11.  Full statement: page numbers and positions out of range give an error
    and leave the document unchanged.  True for numbers that are too big. *)
Theorem C11_too_big_partial : forall p t f k, page_tree p t -> (depth t <= f)%nat ->
  Z.of_nat (List.length (leaves t)) < k ->
  removePage f p k = Ok (p, Some ENoPageRemove) /\ removeOtherPages f p k = Ok (p, Some ENoPageKeep) /\
  forall pos, duplicatePageAfter f p k pos = Ok (p, Some ENoPageCopy).
Proof. exact remove_too_big. Qed.
Print Assumptions C11_too_big_partial.

(** False for numbers from 0 down, on every document. *)
Theorem C11_not_positive_panics : forall p t f k, page_tree p t -> (depth t <= f)%nat -> k <= 0 ->
  removePage f p k = Panic /\ (forall pos, duplicatePageAfter f p k pos = Panic) /\
  (k < 0 -> removeOtherPages f p k = Panic).
Proof. exact remove_panics. Qed.
Print Assumptions C11_not_positive_panics.

(** False for positions outside the document, on every document. *)
Theorem C11_position_panics : forall p t f k pos, page_tree p t -> (depth t <= f)%nat ->
  let n := Z.of_nat (List.length (leaves t)) in
  1 <= k <= n -> copyable (objs p) (nth (Z.to_nat (k - 1)) (leaves t) 0) ->
  n <= pos \/ pos < - n -> duplicatePageAfter f p k pos = Panic.
Proof. exact duplicate_bad_pos. Qed.
Print Assumptions C11_position_panics.

Theorem C11_refuted : exists p t, page_tree p t /\ leaves t = [3; 5; 6] /\
  removePage 3 p 0 = Panic /\ duplicatePageAfter 3 p 0 0 = Panic /\ duplicatePageAfter 3 p 1 3 = Panic /\
  duplicatePageAfter 3 p 1 (-4) = Panic.
Proof.
  exists sample, sample_tree. split; [exact sample_page_tree|]. split; [reflexivity|].
  repeat split; vm_compute; reflexivity.
Qed.
Print Assumptions C11_refuted.
