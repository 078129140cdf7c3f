(** Cases of C84: the words that pdft looks for stand in a picture. *)
From Coq Require Import String List ZArith Lia Bool.
From Coq.Floats Require Import SpecFloat.
From Verif Require Import Base BaseProofs Output OutputSpec PdfSyntax Float64 TextSpec PdfData Parse ParseSpec ParseFinal GoPdf GoPdfSpec GoPdfFile GoPdfTree GoPdfCases GoPdfDocSpec GoPdfOpenSpec GoPdfOpen GoPdfOpenDoc GoPdfOpenCases GoPdfResCases.
Open Scope Z_scope.
Open Scope list_scope.

(** A page with a JPEG picture that holds [word].  GoPdf copies the bytes of a
    JPEG picture into the file (/repo/minigopdf/image_obj.go). *)
Definition pictured (word : bytes) : list gcall := [AddPage (fofz 100, fofz 50); at_ (B"p") ([255; 216; 10] ++ word ++ [10; 1])].
Definition saved_word (word : bytes) := save gw_pics [] page_cfg (pictured word).
Definition bufs_endobj : list bytes := Eval vm_compute in s_bufs (saved_word (B"endobj")).

Lemma word_doc : forall word, (match saved_word word with Ok _ => true | _ => false end) = true -> (blen (s_file (saved_word word)) <? 10 ^ 10) = true ->
  info_of (s_trace (saved_word word)) = None -> forallb own_size (pages_of (s_trace (saved_word word))) = true ->
  document gw_pics [] page_cfg (s_trace (saved_word word)) (s_file (saved_word word)) /\ map (fun x => snd (fst x)) (s_trace (saved_word word)) = pictured word /\
  blen (s_file (saved_word word)) < 10 ^ 10 /\ real_infos (s_trace (saved_word word)) /\ forallb own_size (pages_of (s_trace (saved_word word))) = true.
Proof.
  intros word O L I P. destruct (s_document gw_pics [] page_cfg (pictured word) (saved_word word) eq_refl) as (D & M).
  { unfold saved_word in *. exact O. }
  split; [exact D|]. split; [exact M|]. split; [lia|]. split; [|exact P]. intros i Ei. congruence.
Qed.

Lemma endobj_file : is_file (s_file (saved_word (B"endobj"))) bufs_endobj None None.
Proof. apply s_is_file. vm_compute. reflexivity. Qed.
Lemma endobj_read : exists d, PDFParse whole00 2 (s_file (saved_word (B"endobj"))) nodoc = (d, Ok tt) /\ option_map (fun o => blen (odata o)) (nth_error (objs (d_pdf d)) 4) = Some 139 /\
  option_map oid (nth_error (objs (d_pdf d)) 4) = Some 5.
Proof. eexists. split; [vm_compute; reflexivity|]. split; vm_compute; reflexivity. Qed.
Lemma endobj_fifth : option_map blen (nth_error bufs_endobj 4) = Some 157.
Proof. vm_compute. reflexivity. Qed.
Lemma endobj_cut : exists d, PDFParse whole00 2 (s_file (saved_word (B"endobj"))) nodoc = (d, Ok tt) /\ ~ all_objects (s_file (saved_word (B"endobj"))) (objs (d_pdf d)).
Proof.
  destruct endobj_read as (d & E & L & I). exists d. split; [exact E|]. intros (base & _ & A).
  destruct (nth_error (objs (d_pdf d)) 4) as [o|] eqn:No; [|discriminate L]. destruct (A _ _ No) as (_ & b & Hb & Eo).
  destruct (nth_error bufs_endobj 4) as [b'|] eqn:Nb. 2:{ pose proof endobj_fifth as X. rewrite Nb in X. discriminate X. }
  pose proof endobj_fifth as X. rewrite Nb in X.
  destruct endobj_file as (Ef & Hs). pose proof (file_body bufs_endobj None None) as FB. rewrite <- Ef in FB. specialize (FB Hs Logic.I _ _ Nb).
  assert (Eid : oid o = 1 + Z.of_nat 4) by (change (1 + Z.of_nat 4) with 5; cbn [option_map] in I; congruence). rewrite Eid in Hb.
  pose proof (body_unique _ _ _ _ Hb FB) as Eb. subst b'. cbn [option_map] in L, X.
  assert (L1 : blen (odata o) = 139) by congruence. assert (L2 : blen b = 157) by congruence. rewrite Eo in L1. unfold blen in *. rewrite app_length in L1. cbn [List.length] in L1. lia.
Qed.

Lemma words_needed :
  (exists w rnd cfg t F float f, document w rnd cfg t F /\ map (fun x => snd (fst x)) t = pictured (B"endobj") /\ blen F < 10 ^ 10 /\ real_infos t /\ forallb own_size (pages_of t) = true /\
    exists d, PDFParse float (S (S f)) F nodoc = (d, Ok tt) /\ ~ all_objects F (objs (d_pdf d))) /\
  (exists w rnd cfg t F, document w rnd cfg t F /\ map (fun x => snd (fst x)) t = pictured (B"trailer") /\ blen F < 10 ^ 10 /\ real_infos t /\ forallb own_size (pages_of t) = true /\
    forall float f, exists d e, PDFParse float (S (S f)) F nodoc = (d, Err e)) /\
  (exists w rnd cfg t F, document w rnd cfg t F /\ map (fun x => snd (fst x)) t = pictured (B"startxref") /\ blen F < 10 ^ 10 /\ real_infos t /\ forallb own_size (pages_of t) = true /\
    forall float f, exists d, PDFParse float (S (S f)) F nodoc = (d, Panic)).
Proof.
  split; [|split].
  - exists gw_pics, [], page_cfg, (s_trace (saved_word (B"endobj"))), (s_file (saved_word (B"endobj"))), whole00, O.
    destruct (word_doc (B"endobj") ltac:(vm_compute; reflexivity) ltac:(vm_compute; reflexivity) ltac:(vm_compute; reflexivity) ltac:(vm_compute; reflexivity)) as (D & M & Hs & R & P).
    split; [exact D|]. split; [exact M|]. split; [exact Hs|]. split; [exact R|]. split; [exact P|exact endobj_cut].
  - exists gw_pics, [], page_cfg, (s_trace (saved_word (B"trailer"))), (s_file (saved_word (B"trailer"))).
    destruct (word_doc (B"trailer") ltac:(vm_compute; reflexivity) ltac:(vm_compute; reflexivity) ltac:(vm_compute; reflexivity) ltac:(vm_compute; reflexivity)) as (D & M & Hs & R & P).
    split; [exact D|]. split; [exact M|]. split; [exact Hs|]. split; [exact R|]. split; [exact P|]. intros float f. eexists _, _. vm_compute. reflexivity.
  - exists gw_pics, [], page_cfg, (s_trace (saved_word (B"startxref"))), (s_file (saved_word (B"startxref"))).
    destruct (word_doc (B"startxref") ltac:(vm_compute; reflexivity) ltac:(vm_compute; reflexivity) ltac:(vm_compute; reflexivity) ltac:(vm_compute; reflexivity)) as (D & M & Hs & R & P).
    split; [exact D|]. split; [exact M|]. split; [exact Hs|]. split; [exact R|]. split; [exact P|]. intros float f. eexists. vm_compute. reflexivity.
Qed.
