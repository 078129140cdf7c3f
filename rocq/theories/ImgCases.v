(** Documents in which images are lost, mixed up or out of reach after saving. *)
From Coq Require Import String List ZArith Lia Bool Permutation.
From Verif Require Import Base BaseProofs Output Props PropsSpec PdfData PagesSpec PagesProofs PagesEdit Crawl Inject
  InjectSpec InjectVisits InjectPages InjectTidy InjectFonts InjectFinal InjectCheck InjectCases.
Open Scope Z_scope.
Open Scope list_scope.

Notation XO := (B"XObject").

(** One page with the resources given. *)
Definition one_res (r : bytes) : pdf := mkPdf 1 (head_objs (B"3 0 R") ++ [
  mkObj 3 (B"<</Type /Page /Parent 2 0 R /Resources <<" ++ r ++ B">> >>"); mkObj 12 (B"<</Im1 20 0 R>>");
  mkObj 20 (B"<</Type /XObject>>"); mkObj 21 (B"<</Type /XObject>>")]).
Definition one_tree : tree := Node 2 [Leaf 3].
Definition two_res (a b : bytes) : pdf := mkPdf 1 (head_objs (B"3 0 R 4 0 R") ++ [
  mkObj 3 (B"<</Type /Page /Parent 2 0 R /Resources " ++ a ++ B">>"); mkObj 4 (B"<</Type /Page /Parent 2 0 R /Resources " ++ b ++ B">>");
  mkObj 10 (B"<</XObject <</Im1 20 0 R>> >>"); mkObj 11 (B"<</XObject <</Im1 21 0 R>> >>");
  mkObj 20 (B"<</Type /XObject>>"); mkObj 21 (B"<</Type /XObject>>")]).
Definition two_tree : tree := Node 2 [Leaf 3; Leaf 4].

Ltac images := apply (pf_of_is XO); vm_compute; reflexivity.
Ltac names_it v := exists (B v); split; [apply value_iff; reflexivity|reflexivity].

(** A name without a number is dropped with all that come after it, although no
    image was inserted. *)
Lemma logo_dropped : exists ord p t p' L xps xps', fair ord /\ page_tree p t /\ In L (leaves t) /\ injectImgs ord p [] = Ok (p', []) /\
  page_images (objs p) L xps /\ font_named xps (B"Logo") 20 /\ font_named xps (B"Im2") 21 /\
  page_images (objs p') L xps' /\ ~ has_key xps' (B"Logo") /\ ~ has_key xps' (B"Im2").
Proof.
  set (d := one_res (B"/XObject <</Im1 20 0 R /Logo 20 0 R /Im2 21 0 R>>")).
  assert (R : exists p', injectImgs ido d [] = Ok (p', []) /\ pf_of XO (objs p') 3 = Some [mkProp (B"Im1") (B"20 0 R")])
    by (eexists; split; [vm_compute; reflexivity|vm_compute; reflexivity]).
  destruct R as (p' & R & F). exists ido, d, one_tree, p', 3,
    [mkProp (B"Im1") (B"20 0 R"); mkProp (B"Logo") (B"20 0 R"); mkProp (B"Im2") (B"21 0 R")], [mkProp (B"Im1") (B"20 0 R")].
  split; [exact ido_fair|]. split; [apply (treeb_tree 3); vm_compute; reflexivity|]. split; [left; reflexivity|]. split; [exact R|].
  split; [images|]. split; [names_it "20 0 R"%string|]. split; [names_it "21 0 R"%string|]. split; [apply (pf_of_is XO); exact F|].
  split; apply key_none; reflexivity.
Qed.

(** An image dictionary that is an object of its own is replaced. *)
Lemma indirect_lost : exists ord p t p' L xps xps', fair ord /\ page_tree p t /\ In L (leaves t) /\ injectImgs ord p [40] = Ok (p', [(B"I", 1)]) /\
  page_images (objs p) L xps /\ font_named xps (B"Im1") 20 /\ page_images (objs p') L xps' /\ ~ has_key xps' (B"Im1").
Proof.
  assert (R : exists p', injectImgs ido (one_res (B"/XObject 12 0 R")) [40] = Ok (p', [(B"I", 1)]) /\ pf_of XO (objs p') 3 = Some [mkProp (B"I1") (B"40 0 R")])
    by (eexists; split; [vm_compute; reflexivity|vm_compute; reflexivity]).
  destruct R as (p' & R & F). exists ido, (one_res (B"/XObject 12 0 R")), one_tree, p', 3, [mkProp (B"Im1") (B"20 0 R")], [mkProp (B"I1") (B"40 0 R")].
  split; [exact ido_fair|]. split; [apply (treeb_tree 3); vm_compute; reflexivity|]. split; [left; reflexivity|]. split; [exact R|].
  split; [images|]. split; [names_it "20 0 R"%string|]. split; [apply (pf_of_is XO); exact F|]. apply key_none. reflexivity.
Qed.

(** Only the last entry is looked at for a free number: the name of the second
    image stands for a picture that was there before. *)
Lemma old_shown : exists ord p t p' L xps xps', fair ord /\ page_tree p t /\ In L (leaves t) /\
  injectImgs ord p [40; 41] = Ok (p', [(B"Im", 4); (B"Im", 5)]) /\
  page_images (objs p) L xps /\ font_named xps (B"Im5") 20 /\ page_images (objs p') L xps' /\ font_named xps' (B"Im5") 20 /\
  forall k, ~ font_named xps' k 41.
Proof.
  set (d := one_res (B"/XObject <</Im5 20 0 R /Im3 21 0 R>>")).
  assert (R : exists p', injectImgs ido d [40; 41] = Ok (p', [(B"Im", 4); (B"Im", 5)]) /\
    pf_of XO (objs p') 3 = Some [mkProp (B"Im5") (B"20 0 R"); mkProp (B"Im3") (B"21 0 R"); mkProp (B"Im4") (B"40 0 R")])
    by (eexists; split; [vm_compute; reflexivity|vm_compute; reflexivity]).
  destruct R as (p' & R & F). exists ido, d, one_tree, p', 3, [mkProp (B"Im5") (B"20 0 R"); mkProp (B"Im3") (B"21 0 R")],
    [mkProp (B"Im5") (B"20 0 R"); mkProp (B"Im3") (B"21 0 R"); mkProp (B"Im4") (B"40 0 R")].
  split; [exact ido_fair|]. split; [apply (treeb_tree 3); vm_compute; reflexivity|]. split; [left; reflexivity|]. split; [exact R|].
  split; [images|]. split; [names_it "20 0 R"%string|]. split; [apply (pf_of_is XO); exact F|]. split; [names_it "20 0 R"%string|].
  intros k (v & V & I'). apply value_iff in V. cbn [getPropByKey pkey] in V.
  destruct (beqb (B"Im5") k); [inversion V; subst; vm_compute in I'; discriminate|].
  destruct (beqb (B"Im3") k); [inversion V; subst; vm_compute in I'; discriminate|].
  destruct (beqb (B"Im4") k); [inversion V; subst; vm_compute in I'; discriminate|]. discriminate.
Qed.

(** A page without images gets none when another page has some. *)
Lemma other_page : exists ord p t p' L, fair ord /\ page_tree p t /\ In L (leaves t) /\ injectImgs ord p [40] = Ok (p', [(B"Im", 2)]) /\
  forall xps, ~ page_images (objs p') L xps.
Proof.
  set (d := two_res (B"<</XObject <</Im1 20 0 R>> >>") (B"<</ProcSet [/PDF]>>")).
  assert (R : exists p', injectImgs ido d [40] = Ok (p', [(B"Im", 2)]) /\ pageb XO (objs p') 4 = true /\ place_fonts (place_of XO (objs p') 4) = None)
    by (eexists; split; [vm_compute; reflexivity|split; [vm_compute; reflexivity|vm_compute; reflexivity]]).
  destruct R as (p' & R & Pb & Pl). exists ido, d, two_tree, p', 4.
  split; [exact ido_fair|]. split; [apply (treeb_tree 3); vm_compute; reflexivity|]. split; [right; left; reflexivity|]. split; [exact R|].
  intros xps H. apply (page_place _ _ _ _ _ _ (pageb_is _ _ _ Pb)) in H. congruence.
Qed.

(** With resources in objects, the order of a map decides which page gets the image. *)
Lemma either_page : exists p t L xps, page_tree p t /\ In L (leaves t) /\ page_images (objs p) L xps /\
  (exists ord p' xps', fair ord /\ injectImgs ord p [40] = Ok (p', [(B"Im", 2)]) /\ page_images (objs p') L xps' /\ font_named xps' (B"Im2") 40) /\
  (exists ord p', fair ord /\ injectImgs ord p [40] = Ok (p', [(B"Im", 2)]) /\ forall xps', page_images (objs p') L xps' -> xps' = xps).
Proof.
  set (d := two_res (B"10 0 R") (B"11 0 R")).
  exists d, two_tree, 3, [mkProp (B"Im1") (B"20 0 R")]. split; [apply (treeb_tree 3); vm_compute; reflexivity|]. split; [left; reflexivity|].
  split; [images|]. split.
  - assert (R : exists p', injectImgs ido d [40] = Ok (p', [(B"Im", 2)]) /\ pf_of XO (objs p') 3 = Some [mkProp (B"Im1") (B"20 0 R"); mkProp (B"Im2") (B"40 0 R")])
      by (eexists; split; [vm_compute; reflexivity|vm_compute; reflexivity]).
    destruct R as (p' & R & F). exists ido, p', [mkProp (B"Im1") (B"20 0 R"); mkProp (B"Im2") (B"40 0 R")].
    split; [exact ido_fair|]. split; [exact R|]. split; [apply (pf_of_is XO); exact F|]. names_it "40 0 R"%string.
  - assert (R : exists p', injectImgs revo d [40] = Ok (p', [(B"Im", 2)]) /\ pf_of XO (objs p') 3 = Some [mkProp (B"Im1") (B"20 0 R")])
      by (eexists; split; [vm_compute; reflexivity|vm_compute; reflexivity]).
    destruct R as (p' & R & F). exists revo, p'. split; [exact revo_fair|]. split; [exact R|]. intros xps' H. eapply pf_of_only; eauto.
Qed.

(** Nothing can be saved when no page has resources, or when the dictionary
    consists of three words. *)
Lemma bare_fails : exists p t, page_tree p t /\ injectImgs ido p [] = Err EOther.
Proof.
  exists (mkPdf 1 (head_objs (B"3 0 R") ++ [mkObj 3 (B"<</Type /Page /Parent 2 0 R>>")])), one_tree.
  split; [apply (treeb_tree 3); vm_compute; reflexivity|vm_compute; reflexivity].
Qed.
Lemma three_words : exists p t L rps, page_tree p t /\ In L (leaves t) /\
  (exists ps v, dict (objs p) L ps /\ value ps (B"Resources") v /\ points (objs p) v rps) /\ injectImgs ido p [] = Err EOther.
Proof.
  set (d := one_res (B"/ExtGState <</G <</CA 1 /ca 1>> >>")).
  exists d, one_tree, 3, [mkProp (B"ExtGState") (B"<</G<</CA 1/ca 1>>>>")].
  split; [apply (treeb_tree 3); vm_compute; reflexivity|]. split; [left; reflexivity|]. split; [|vm_compute; reflexivity].
  exists (props_of (objs d) 3), (B"<</ExtGState<</G<</CA 1/ca 1>>>>>>"). split; [apply propsb_dict; vm_compute; reflexivity|].
  split; [apply value_iff; vm_compute; reflexivity|]. left. split; vm_compute; reflexivity.
Qed.
