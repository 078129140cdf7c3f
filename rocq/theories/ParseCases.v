(** Concrete files for C05 and C17. *)
From Coq Require Import String List ZArith Lia Bool.
From Coq.Floats Require Import SpecFloat.
From Verif Require Import Base BaseProofs Output OutputSpec OutputProofs Props PdfData Float64 Parse ParseProofs ParseSpec ParseFinal.
Open Scope Z_scope.
Open Scope list_scope.

(** A page without MediaBox; "endobj" inside a body. *)
Definition no_box : list obj :=
  [mkObj 1 (B"<</Type/Catalog/Pages 2 0 R>>"); mkObj 2 (B"<</Type/Pages/Count 1/Kids[3 0 R]>>"); mkObj 3 (B"<</Type/Page/Parent 2 0 R>>")].
Definition lost_kid : list obj :=
  [mkObj 1 (B"<</Type/Catalog/Pages 2 0 R>>"); mkObj 2 (B"<</Type/Pages/Count 1/Kids[3 0 R]>>")].
Definition odd_kids : list obj :=
  [mkObj 1 (B"<</Type/Catalog/Pages 2 0 R>>"); mkObj 2 (B"<</Type/Pages/Count 1/Kids[3 0 R 4]>>"); mkObj 3 (B"<</Type/Page/MediaBox[0 0 1 1]>>")].
Definition own_kid : list obj :=
  [mkObj 1 (B"<</Type/Catalog/Pages 2 0 R>>"); mkObj 2 (B"<</Type/Pages/Count 1/Kids[2 0 R]>>")].
Definition early_startxref : bytes := B"xref" ++ [10] ++ B"startxref" ++ [10] ++ B"0" ++ [10] ++ B"trailer" ++ [10] ++ B"<</Root 1 0 R>>".
Definition far_row : bytes := B"xref" ++ [10] ++ B"0000099999 00000 n" ++ [10] ++ B"trailer <</Root 1 0 R>> startxref 0".

Definition plainb (o : obj) : bool :=
  match index (B"xref") (odata o), index (B"trailer") (odata o), index (B"endobj") (odata o) with None, None, None => true | _, _, _ => false end.

Lemma free_index : forall p s, index p s = None -> free_of p s.
Proof. intros p s H a b E. apply index_none with (m := List.length a) in H. apply H. exists a, b. auto. Qed.

Lemma plain_check : forall os, forallb plainb os = true -> Forall plain_object os.
Proof.
  intros os H. apply Forall_forall. intros o Ho. rewrite forallb_forall in H. specialize (H o Ho). unfold plainb in H.
  destruct (index (B"xref") (odata o)) eqn:E1; [discriminate|]. destruct (index (B"trailer") (odata o)) eqn:E2; [discriminate|].
  destruct (index (B"endobj") (odata o)) eqn:E3; [discriminate|]. split; [|split]; now apply free_index.
Qed.

Lemma own_kid_loops : forall fuel d r, PDFParse whole fuel (toStream own_kid 2 1 None) nodoc = (d, r) -> r = Diverge.
Proof.
  intros fuel d r H.
  assert (P : Forall plain_object (saved own_kid 2 None)) by (apply plain_check; vm_compute; reflexivity).
  assert (L : blen (toStream own_kid 2 1 None) < 10 ^ 10) by (vm_compute; reflexivity).
  destruct (reopen_doc whole fuel own_kid 2 1 None ltac:(lia) ltac:(lia) L P) as [xs E]. rewrite E in H. clear E. cbv zeta in H.
  set (os := listing (saved own_kid 2 None) (saved_last 2 None)) in *.
  assert (S : setPagesObj (mkPdf 1 os) = Ok tt) by (vm_compute; reflexivity). rewrite S in H.
  assert (V : forall f, visit f os 2 = Diverge).
  { induction f as [|f IH]; [reflexivity|].
    assert (R : getObj 2 os = Ok (stored (mkObj 2 (B"<</Type/Pages/Count 1/Kids[2 0 R]>>")))) by (vm_compute; reflexivity).
    cbn [visit]. rewrite R. cbn [bind].
    assert (RP : readProperties (odata (stored (mkObj 2 (B"<</Type/Pages/Count 1/Kids[2 0 R]>>")))) =
      Ok [mkProp (B"Type") []; mkProp (B"Pages") []; mkProp (B"Count") (B"1"); mkProp (B"Kids") (B"[2 0 R]")]) by (vm_compute; reflexivity).
    rewrite RP. change (getPropByKey (B"Pages") _) with (Some (mkProp (B"Pages") [])).
    change (getPropByKey (B"Kids") _) with (Some (mkProp (B"Kids") (B"[2 0 R]"))). cbn [pval].
    change (readObjIDs (B"[2 0 R]")) with (Ok [2]). cbv beta iota. fold (visit f). rewrite IH. reflexivity. }
  assert (G : getPageObjIDs fuel (mkPdf 1 os) = Diverge).
  { unfold getPageObjIDs. cbn [root objs].
    assert (R : getObj 1 os = Ok (stored (mkObj 1 (B"<</Type/Catalog/Pages 2 0 R>>")))) by (vm_compute; reflexivity).
    rewrite R. cbn [bind].
    assert (RP : readProperties (odata (stored (mkObj 1 (B"<</Type/Catalog/Pages 2 0 R>>")))) =
      Ok [mkProp (B"Type") []; mkProp (B"Catalog") []; mkProp (B"Pages") (B"2 0 R")]) by (vm_compute; reflexivity).
    rewrite RP. change (getPropByKey (B"Pages") _) with (Some (mkProp (B"Pages") (B"2 0 R"))). cbn [pval].
    change (readObjID (B"2 0 R")) with (Ok 2). apply V. }
  rewrite G in H. injection H as _ <-. reflexivity.
Qed.
