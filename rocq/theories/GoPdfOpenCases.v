(** Cases of C84. *)
From Coq Require Import String List ZArith Lia Bool.
From Coq.Floats Require Import SpecFloat.
From Verif Require Import Base BaseProofs Output OutputSpec PdfSyntax Float64 TextSpec PdfData Parse ParseSpec ParseFinal GoPdf GoPdfSpec GoPdfFile GoPdfTree GoPdfCases GoPdfDocSpec GoPdfOpenSpec GoPdfOpen GoPdfOpenDoc.
Open Scope Z_scope.
Open Scope list_scope.

Lemma body_unique : forall F id b b', body_of F id b -> body_of F id b' -> b = b'.
Proof.
  intros F id b b' (off & next & d & (N & base & T & H & R & E) & D & L & X) (off' & next' & d' & (N' & base' & T' & H' & R' & E') & D' & L' & X').
  destruct (table_unique _ _ _ _ _ T T') as (<- & <-). pose proof (row_unique _ _ _ _ _ _ _ _ _ R R') as <-.
  assert (next = next').
  { destruct E as [(E & Q)|(E & Q)], E' as [(E' & Q')|(E' & Q')]; try lia; [eapply row_unique; eauto|eapply startxref_unique; eauto]. }
  subst next'. rewrite X in X'. change (B" 0 obj" ++ ?x) with (32 :: B"0 obj" ++ x) in X'.
  destruct (digits_split _ _ 32 32 _ _ (numeral_digits _ _ D) (numeral_digits _ _ D') eq_refl eq_refl X') as (_ & E2).
  apply (app_inv_head (B" 0 obj" ++ [10])) in E2. apply app_inv_tail in E2. exact E2.
Qed.

Definition wordless (b : bytes) : bool := negb (contains (B"endobj") b) && negb (contains (B"xref") b) && negb (contains (B"trailer") b).
Lemma case_words : forall F bs enc info, is_file F bs enc info -> match enc with Some e => 0 <= e | None => True end -> forallb wordless bs = true -> no_words F.
Proof.
  intros F bs enc info (-> & Hs) He W id b Hb.
  assert (Hid : 0 < id <= Z.of_nat (List.length bs)).
  { destruct Hb as (off & next & d & (N & base & T & H & _) & _). destruct (table_unique _ _ _ _ _ T (file_table bs enc info)) as (-> & _). lia. }
  destruct (nth_error bs (Z.to_nat (id - 1))) as [b'|] eqn:E.
  2:{ apply nth_error_None in E. lia. }
  pose proof (file_body bs enc info Hs He _ _ E) as Hb'. replace (1 + Z.of_nat (Z.to_nat (id - 1))) with id in Hb' by lia. rewrite (body_unique _ _ _ _ Hb Hb').
  rewrite forallb_forall in W. specialize (W b' (nth_error_In _ _ E)). unfold wordless in W. apply andb_true_iff in W. destruct W as (W & W3). apply andb_true_iff in W. destruct W as (W1 & W2).
  assert (G : forall p, negb (contains p b') = true -> free_of p b').
  { intros p H x y Exy. apply negb_true_iff in H. apply contains_false in H. apply (H (List.length x)). exists x, y. auto. }
  split; [|split]; apply G; assumption.
Qed.

Definition some_info : ginfo := mkInfo (B"T") ([77; 195; 169]) [] [] (B"GoPdf") (Some (B"20200131235959+07'00'")).
Lemma some_real : real_info some_info.
Proof.
  assert (T : forall s, forallb (fun c => (0 <=? c) && (c <? 256)) s = true -> real_text s) by (intros s H; apply Forall_forall; intros c Hc; rewrite forallb_forall in H; apply H in Hc; lia).
  repeat (split; [apply T; reflexivity|]). cbn [some_info i_date]. apply Forall_forall. intros c Hc.
  assert (X : forallb (fun c => (48 <=? c) && (c <=? 57) || (c =? 39) || (c =? 43) || (c =? 45)) (B"20200131235959+07'00'") = true) by reflexivity.
  rewrite forallb_forall in X. apply X in Hc. unfold date_char. lia.
Qed.

(** Two pages with sizes of their own; the second one has nothing on it. *)
Definition sized : list gcall :=
  [a_font; Info some_info; AddPage (fofz 100, fofz 50); SetFont (B"T") 0 12; Text (B"A"); Line (fofz 10) (fofz 20) (fofz 30) (fofz 40); AddPage (fofz 60, fofz 70)].
Definition saved84 := save gw_id [] page_cfg sized.
Definition bufs84 : list bytes := Eval vm_compute in s_bufs saved84.
(** ParseFloat on numbers of the form "n.00" *)
Definition whole00 (s : bytes) : res f64 := do n <- atoi (match index (B".00") s with Some k => firstn k s | None => s end); Ok (fofz n).

Lemma sized_case : document gw_id [] page_cfg (s_trace saved84) (s_file saved84) /\ map (fun x => snd (fst x)) (s_trace saved84) = sized /\
  blen (s_file saved84) < 10 ^ 10 /\ real_infos (s_trace saved84) /\ no_words (s_file saved84) /\ forallb own_size (pages_of (s_trace saved84)) = true /\
  exists d, PDFParse whole00 2 (s_file saved84) nodoc = (d, Ok tt) /\ getPageObjIDs 2 (d_pdf d) = Ok [9; 11] /\ List.length (objs (d_pdf d)) = 11%nat /\
    d_sizes d = [(0, map fofz [0; 0; 100; 50]); (1, map fofz [0; 0; 60; 70])].
Proof.
  destruct (s_document gw_id [] page_cfg sized saved84 eq_refl ltac:(vm_compute; reflexivity)) as (D & M).
  assert (I : is_file (s_file saved84) bufs84 None (Some some_info)) by (apply s_is_file; vm_compute; reflexivity).
  split; [exact D|]. split; [exact M|]. split; [apply I|]. split; [|split; [|split]].
  - intros i Ei. assert (Ex : info_of (s_trace saved84) = Some some_info) by (vm_compute; reflexivity). rewrite Ex in Ei. assert (some_info = i) as <- by congruence. exact some_real.
  - apply (case_words _ bufs84 None (Some some_info) I Logic.I). vm_compute. reflexivity.
  - vm_compute. reflexivity.
  - eexists. split; [vm_compute; reflexivity|]. split; [vm_compute; reflexivity|]. split; vm_compute; reflexivity.
Qed.

(** A page of the size of the document: pdft panics. *)
Definition saved84p := save gw_id [] page_cfg [std_page; Line (fofz 10) (fofz 20) (fofz 30) (fofz 40)].
Lemma unsized_case : exists w rnd cfg t F, document w rnd cfg t F /\ map (fun x => snd (fst x)) t = [std_page; Line (fofz 10) (fofz 20) (fofz 30) (fofz 40)] /\
  Forall drawn_page (pages_of t) /\ forall float f, exists d, PDFParse float (S (S f)) F nodoc = (d, Panic).
Proof.
  destruct (s_document gw_id [] page_cfg [std_page; Line (fofz 10) (fofz 20) (fofz 30) (fofz 40)] saved84p eq_refl ltac:(vm_compute; reflexivity)) as (D & M).
  exists gw_id, [], page_cfg, (s_trace saved84p), (s_file saved84p). split; [exact D|]. split; [exact M|]. split.
  - assert (E : exists p x l, pages_of (s_trace saved84p) = [p] /\ snd p = x :: l /\ draws_something x /\ finite (fst (fst p)) /\ finite (snd (fst p))).
    { eexists _, _, _. split; [vm_compute; reflexivity|]. split; [reflexivity|]. split; [split; [reflexivity|exact Logic.I]|]. split; exact Logic.I. }
    destruct E as (p & x & l & -> & El & Dx & F1 & F2). constructor; [|constructor]. split; [exact F1|]. split; [exact F2|]. rewrite El. apply Exists_cons_hd. exact Dx.
  - intros float f. eexists. vm_compute. reflexivity.
Qed.

(** Nothing at all: no page is found. *)
Definition saved84e := save gw_id [] page_cfg [].
Lemma nothing_case : document gw_id [] page_cfg [] (s_file saved84e) /\ exists d, PDFParse whole00 2 (s_file saved84e) nodoc = (d, Ok tt) /\ getPageObjIDs 2 (d_pdf d) = Ok [] /\ d_sizes d = [].
Proof.
  destruct (s_document gw_id [] page_cfg [] saved84e eq_refl ltac:(vm_compute; reflexivity)) as (D & M). apply map_eq_nil in M. rewrite M in D. split; [exact D|].
  eexists. split; [vm_compute; reflexivity|]. split; vm_compute; reflexivity.
Qed.
