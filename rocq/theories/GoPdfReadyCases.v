(** Cases of C86. *)
From Coq Require Import String List ZArith Lia Bool Permutation.
From Coq.Floats Require Import SpecFloat.
From Verif Require Import Float64 TextSpec PdfSyntax GoPdf GoPdfSpec GoPdfDrawSpec GoPdfDocSpec GoPdfFile GoPdfTree GoPdfCases GoPdfOpenSpec GoPdfOpenCases GoPdfResSpec GoPdfReadySpec.
From Verif Require Import Base BaseProofs Output OutputSpec Props PdfData PagesSpec Inject InjectSpec Crawl ContentSpec Parse ParseFinal Png Crypto Api TestFont ApiCases SaveSpec SaveDoc SaveDrawSpec GoPdfReadyApi.
Open Scope Z_scope.
Open Scope list_scope.

(** Streams are "compressed" by writing the letter x in front of them. *)
Definition gw_x : gworld := mkGW (gw_config gw_id) (gw_bounds gw_id) (fun b => match b with 120 :: r => Ok r | _ => Err EOther end) (fun b => 120 :: b) (fun _ b => 120 :: b).
Definition any_float (s : bytes) : res f64 := match whole00 s with Ok y => Ok y | _ => Ok (fofz 0) end.
Definition world_x : world := mkWorld (w_config plain_world) (fun b => match b with 120 :: r => Ok r | _ => Err EOther end) (fun b => 120 :: b) any_float (fun b => Ok b).
Definition prog86 : list gcall :=
  [a_font; GoPdf.Info some_info; AddPage (fofz 100, fofz 50); SetFont (B"T") 0 12; GoPdf.Text (B"A"); AddPage (fofz 60, fofz 70); Line (fofz 10) (fofz 20) (fofz 30) (fofz 40)].
Definition saved86 := save gw_x [] page_cfg prog86.
Definition calls86 : list call := [KAddFont (B"U") (Some test_font) [0; 0; 0; 0]; KSetFont (B"U") [] 12; put_text (B"AB")].
Definition state86 : state := match history world_x 2 (KOpen (s_file saved86) :: calls86) new_pdft with Ok (s, _) => s | _ => new_pdft end.
Definition out86 : state * bytes := match saveTo world_x 2 (plain_choices false) state86 with Ok (s', Ok F) => (s', F) | _ => (new_pdft, []) end.
Definition log86 := match history world_x 2 (KOpen (s_file saved86) :: calls86) new_pdft with Ok (_, l) => map snd l | _ => [] end.

Definition bufs86 : list bytes := Eval vm_compute in s_bufs saved86.
Definition seen86 (id : Z) : res bytes :=
  match history world_x 2 [KOpen (snd out86)] new_pdft with Ok (s, _) => do o <- getObj id (objs (d_pdf (s_doc s))); Ok (odata o) | _ => Panic end.
Definition was86 (id : Z) : res bytes := do o <- getObj id (objs (d_pdf (s_doc state86))); Ok (odata o).

Lemma compresses_x : compresses gw_x (w_inflate world_x).
Proof. intros l s. split; [reflexivity|]. exists s. reflexivity. Qed.
Lemma accepts_x : accepts (w_float world_x).
Proof.
  assert (T : forall s, exists y, any_float s = Ok y) by (intros s; unfold any_float; destruct (whole00 s); eauto). split; [apply T|intros x; apply T].
Qed.
Lemma pages86 : pages_of (s_trace saved86) <> [] /\ Forall drawn_page (pages_of (s_trace saved86)) /\ forallb own_size (pages_of (s_trace saved86)) = true.
Proof.
  assert (E : exists p q, pages_of (s_trace saved86) = [p; q] /\ Exists draws_something (snd p) /\ Exists draws_something (snd q) /\
    finite (fst (fst p)) /\ finite (snd (fst p)) /\ finite (fst (fst q)) /\ finite (snd (fst q)) /\ own_size p && own_size q = true).
  { eexists _, _. split; [vm_compute; reflexivity|]. split; [apply Exists_cons_tl, Exists_cons_hd; split; [reflexivity|exact Logic.I]|]. split; [apply Exists_cons_hd; split; [reflexivity|exact Logic.I]|].
    repeat (split; [exact Logic.I|]). vm_compute. reflexivity. }
  destruct E as (p & q & -> & Dp & Dq & F1 & F2 & F3 & F4 & O). split; [discriminate|]. split.
  - constructor; [|constructor; [|constructor]]; (split; [assumption|split; assumption]).
  - cbn [forallb]. rewrite andb_true_r. exact O.
Qed.
Lemma over_case : document gw_x [] page_cfg (s_trace saved86) (s_file saved86) /\ map (fun x => snd (fst x)) (s_trace saved86) = prog86 /\ blen (s_file saved86) < 10 ^ 10 /\
  real_infos (s_trace saved86) /\ no_words (s_file saved86) /\ accepts (w_float world_x) /\ compresses gw_x (w_inflate world_x) /\ pages_of (s_trace saved86) <> [] /\
  Forall (fun p => finite (fst (fst p)) /\ finite (snd (fst p))) (pages_of (s_trace saved86)) /\
  history world_x 2 (KOpen (s_file saved86) :: calls86) new_pdft = Ok (state86, combine (KOpen (s_file saved86) :: calls86) [None; None; None; None]) /\ Forall adds calls86 /\
  saveTo world_x 2 (plain_choices false) state86 = Ok (fst out86, Ok (snd out86)) /\ protected_by state86 None /\ blen (snd out86) < 10 ^ 10 /\
  (* page 1: GoPdf's text, then pdft's; page 2 as it was *)
  seen86 10 = Ok ([10] ++ B"<<" ++ [10] ++ B"/Length 125" ++ [10] ++ B">>" ++ [10] ++ B"stream" ++ [10] ++
    B"BT" ++ [10] ++ B"10.00 40.00 TD" ++ [10] ++ B"/F1 12 Tf" ++ [10] ++ B"[<0001>] TJ" ++ [10] ++ B"ET" ++ [10] ++ [10] ++
    B"[] 0 d" ++ [10] ++ B"0.00 w" ++ [10] ++ B"BT" ++ [10] ++ B"10.00 30.00 TD" ++ [10] ++ B"/F2 12 Tf" ++ [10] ++ B"0.00 0.00 0.00 rg" ++ [10] ++ B"[<00010002>] TJ" ++ [10] ++ B"ET" ++ [10; 13; 10] ++ B"endstream" ++ [10]) /\
  seen86 12 = was86 12 /\ seen86 8 = was86 8.
Proof.
  destruct (s_document gw_x [] page_cfg prog86 saved86 eq_refl ltac:(vm_compute; reflexivity)) as (D & M).
  assert (Hf : is_file (s_file saved86) bufs86 None (Some some_info)) by (apply s_is_file; vm_compute; reflexivity). destruct pages86 as (P1 & P2 & P3).
  split; [exact D|]. split; [exact M|]. split; [apply Hf|]. split; [|split; [|split; [exact accepts_x|split; [exact compresses_x|split; [exact P1|split; [eapply Forall_impl; [|exact P2]; intros p (A1 & A2 & _); split; assumption|]]]]]].
  - intros i Ei. assert (Ex : info_of (s_trace saved86) = Some some_info) by (vm_compute; reflexivity). rewrite Ex in Ei. assert (some_info = i) as <- by congruence. exact some_real.
  - apply (case_words _ bufs86 None (Some some_info) Hf Logic.I). vm_compute. reflexivity.
  - split; [vm_compute; reflexivity|]. split; [repeat (constructor; [exact Logic.I|]); constructor|]. split; [vm_compute; reflexivity|]. split; [vm_compute; reflexivity|]. split; [vm_compute; reflexivity|].
    split; [vm_compute; reflexivity|]. split; vm_compute; reflexivity.
Qed.

(** The resources of the pages are one object.  It is visited once for each page,
    and each visit adds its entries once more: the dictionary has every key twice,
    and only the first Font entry has the font that pdft added. *)
Lemma twice_case : exists b r xs ps, seen86 3 = Ok b /\ xs = [(B"F1", PRef 8 0)] /\
  reads b (PDict [(B"ProcSet", ps); (B"Font", PDict (xs ++ [(B"F2", PRef 14 0)])); (B"XObject", PDict []); (B"ProcSet", ps); (B"Font", PDict xs); (B"XObject", PDict [])]) r.
Proof. eexists _, _, _, _. split; [vm_compute; reflexivity|]. split; [reflexivity|]. exists 200%nat. vm_compute. reflexivity. Qed.

(** A second page on which GoPdf drew nothing: the document opens, but cannot be
    saved, even if nothing is called in between. *)
Definition prog86e : list gcall := [a_font; AddPage (fofz 100, fofz 50); SetFont (B"T") 0 12; GoPdf.Text (B"A"); AddPage (fofz 60, fofz 70)].
Definition saved86e := save gw_x [] page_cfg prog86e.
Definition state86e (cs : list call) : state := match history world_x 2 (KOpen (s_file saved86e) :: cs) new_pdft with Ok (s, _) => s | _ => new_pdft end.
Definition left86e (cs : list call) : state := match saveTo world_x 2 (plain_choices false) (state86e cs) with Ok (s', _) => s' | _ => new_pdft end.
Lemma blank_case : document gw_x [] page_cfg (s_trace saved86e) (s_file saved86e) /\ map (fun x => snd (fst x)) (s_trace saved86e) = prog86e /\ Forall (fun x => snd x = None) (s_trace saved86e) /\
  history world_x 2 [KOpen (s_file saved86e)] new_pdft = Ok (state86e [], [(KOpen (s_file saved86e), None)]) /\
  saveTo world_x 2 (plain_choices false) (state86e []) = Ok (left86e [], Err EObjNotFound) /\
  history world_x 2 (KOpen (s_file saved86e) :: calls86) new_pdft = Ok (state86e calls86, combine (KOpen (s_file saved86e) :: calls86) [None; None; None; None]) /\
  saveTo world_x 2 (plain_choices false) (state86e calls86) = Ok (left86e calls86, Err EObjNotFound).
Proof.
  destruct (s_document gw_x [] page_cfg prog86e saved86e eq_refl ltac:(vm_compute; reflexivity)) as (D & M). split; [exact D|]. split; [exact M|].
  split; [|split; [vm_compute; reflexivity|split; [vm_compute; reflexivity|split; vm_compute; reflexivity]]].
  assert (E : forallb (fun x : gp * gcall * option err => match snd x with None => true | Some _ => false end) (s_trace saved86e) = true) by (vm_compute; reflexivity).
  apply Forall_forall. intros x Hx. rewrite forallb_forall in E. specialize (E x Hx). destruct (snd x); [discriminate E|reflexivity].
Qed.

(** It has all that C86_blank_partial asks for. *)
Definition bufs86e : list bytes := Eval vm_compute in s_bufs saved86e.
Lemma room86e : (maxID (objs (d_pdf (s_doc (state86e calls86)))) + 6 * Z.of_nat (List.length (ApiIds.names_of (state86e calls86))) + Z.of_nat (List.length (s_imgs (state86e calls86))) <? 2 ^ 63) = true.
Proof. vm_compute. reflexivity. Qed.
Lemma pages86e : exists p q, pages_of (s_trace saved86e) = [p; q] /\ snd q = [].
Proof. eexists _, _. split; [vm_compute; reflexivity|reflexivity]. Qed.
Lemma info86e : info_of (s_trace saved86e) = None.
Proof. vm_compute. reflexivity. Qed.
Lemma blank_all : document gw_x [] page_cfg (s_trace saved86e) (s_file saved86e) /\ blen (s_file saved86e) < 10 ^ 10 /\ real_infos (s_trace saved86e) /\ no_words (s_file saved86e) /\ Exists blank_page (pages_of (s_trace saved86e)) /\
  (exists log, history world_x 2 (KOpen (s_file saved86e) :: calls86) new_pdft = Ok (state86e calls86, log)) /\ Forall adds calls86 /\ fair (ch_ord (plain_choices false)) /\
  maxID (objs (d_pdf (s_doc (state86e calls86)))) + 6 * Z.of_nat (List.length (ApiIds.names_of (state86e calls86))) + Z.of_nat (List.length (s_imgs (state86e calls86))) < 2 ^ 63 /\
  saveTo world_x 2 (plain_choices false) (state86e calls86) = Ok (left86e calls86, Err EObjNotFound).
Proof.
  destruct blank_case as (D & _ & _ & _ & _ & H2 & S2). pose proof room86e as R. apply Z.ltb_lt in R.
  assert (Hf : is_file (s_file saved86e) bufs86e None None) by (apply s_is_file; vm_compute; reflexivity). destruct pages86e as (p & q & E & Q).
  split; [exact D|]. split; [apply Hf|]. split; [|split; [|split; [|split; [eexists; exact H2|split; [repeat (constructor; [exact Logic.I|]); constructor|split; [intros k A l; apply Permutation_refl|split; [exact R|exact S2]]]]]]].
  - intros i Ei. rewrite info86e in Ei. discriminate Ei.
  - apply (case_words _ bufs86e None None Hf Logic.I). vm_compute. reflexivity.
  - rewrite E. right. left. unfold blank_page. rewrite Q. constructor.
Qed.

(** No page at all. *)
Definition saved86n := save gw_x [] page_cfg [a_font].
Definition calls86n : list call := [KAddFont (B"U") (Some test_font) [0; 0; 0; 0]].
Definition state86n : state := match history world_x 2 (KOpen (s_file saved86n) :: calls86n) new_pdft with Ok (s, _) => s | _ => new_pdft end.
Definition left86n : state := match saveTo world_x 2 (plain_choices false) state86n with Ok (s', _) => s' | _ => new_pdft end.
Definition bufs86n : list bytes := Eval vm_compute in s_bufs saved86n.
Lemma info86n : info_of (s_trace saved86n) = None.
Proof. vm_compute. reflexivity. Qed.
Lemma room86n : (maxID (objs (d_pdf (s_doc state86n))) + 6 * Z.of_nat (List.length (ApiIds.names_of state86n)) + Z.of_nat (List.length (s_imgs state86n)) <? 2 ^ 63) = true.
Proof. vm_compute. reflexivity. Qed.
Lemma none_all : document gw_x [] page_cfg (s_trace saved86n) (s_file saved86n) /\ blen (s_file saved86n) < 10 ^ 10 /\ real_infos (s_trace saved86n) /\ no_words (s_file saved86n) /\ pages_of (s_trace saved86n) = [] /\
  history world_x 2 (KOpen (s_file saved86n) :: calls86n) new_pdft = Ok (state86n, combine (KOpen (s_file saved86n) :: calls86n) [None; None]) /\ Forall adds calls86n /\ fair (ch_ord (plain_choices false)) /\
  maxID (objs (d_pdf (s_doc state86n))) + 6 * Z.of_nat (List.length (ApiIds.names_of state86n)) + Z.of_nat (List.length (s_imgs state86n)) < 2 ^ 63 /\
  saveTo world_x 2 (plain_choices false) state86n = Ok (left86n, Err EOther).
Proof.
  destruct (s_document gw_x [] page_cfg [a_font] saved86n eq_refl ltac:(vm_compute; reflexivity)) as (D & M). pose proof room86n as R. apply Z.ltb_lt in R.
  assert (Hf : is_file (s_file saved86n) bufs86n None None) by (apply s_is_file; vm_compute; reflexivity).
  split; [exact D|]. split; [apply Hf|]. split; [intros i Ei; rewrite info86n in Ei; discriminate Ei|]. split; [apply (case_words _ bufs86n None None Hf Logic.I); vm_compute; reflexivity|].
  split; [vm_compute; reflexivity|]. split; [vm_compute; reflexivity|]. split; [constructor; [exact Logic.I|constructor]|]. split; [intros k A l; apply Permutation_refl|]. split; [exact R|]. vm_compute. reflexivity.
Qed.

Lemma blank_witness : exists gw cfg t F w fuel ch cs s0 s0' s s' log, document gw [] cfg t F /\ Forall (fun x => snd x = None) t /\ 
  history w fuel [KOpen F] new_pdft = Ok (s0, [(KOpen F, None)]) /\ saveTo w fuel ch s0 = Ok (s0', Err EObjNotFound) /\
  Forall adds cs /\ history w fuel (KOpen F :: cs) new_pdft = Ok (s, log) /\ Forall (fun x => snd x = None) log /\ saveTo w fuel ch s = Ok (s', Err EObjNotFound).
Proof.
  destruct blank_case as (D & _ & N & H1 & S1 & H2 & S2).
  exists gw_x, page_cfg, (s_trace saved86e), (s_file saved86e), world_x, 2%nat, (plain_choices false), calls86, (state86e []), (left86e []), (state86e calls86), (left86e calls86), (combine (KOpen (s_file saved86e) :: calls86) [None; None; None; None]).
  split; [exact D|]. split; [exact N|]. split; [exact H1|]. split; [exact S1|]. split; [repeat (constructor; [exact Logic.I|]); constructor|]. split; [exact H2|]. split; [|exact S2].
  unfold calls86. cbn [combine]. repeat (constructor; [reflexivity|]). constructor.
Qed.
Lemma again_it : forall b, seen86 3 = Ok b -> exists s2 log2, history world_x 2 [KOpen (snd out86)] new_pdft = Ok (s2, log2) /\ getObj 3 (objs (d_pdf (s_doc s2))) = Ok (mkObj 3 b).
Proof.
  intros b H. unfold seen86 in H. revert H. generalize (history world_x 2 [KOpen (snd out86)] new_pdft). intros h H. destruct h as [(s2, log2)| | |]; try discriminate. exists s2, log2. split; [reflexivity|].
  destruct (getObj 3 (objs (d_pdf (s_doc s2)))) as [o| | |] eqn:E; try discriminate. cbn [bind] in H. assert (odata o = b) by congruence. destruct o as (i, d). cbn [odata] in *. subst d.
  destruct (PagesProofs.get_version _ _ _ E) as (pre & post & _ & Ei & _). cbn [oid] in Ei. subst i. reflexivity.
Qed.
Lemma twice_witness : exists gw cfg t F w fuel ch cs s s' F' log b r xs ps, document gw [] cfg t F /\ Forall adds cs /\
  history w fuel (KOpen F :: cs) new_pdft = Ok (s, log) /\ saveTo w fuel ch s = Ok (s', Ok F') /\
  (exists s2 log2, history w fuel [KOpen F'] new_pdft = Ok (s2, log2) /\ getObj 3 (objs (d_pdf (s_doc s2))) = Ok (mkObj 3 b)) /\ xs = [(B"F1", PRef 8 0)] /\
  reads b (PDict [(B"ProcSet", ps); (B"Font", PDict (xs ++ [(B"F2", PRef 14 0)])); (B"XObject", PDict []); (B"ProcSet", ps); (B"Font", PDict xs); (B"XObject", PDict [])]) r.
Proof.
  destruct over_case as (D & _ & _ & _ & _ & _ & _ & _ & _ & H & A & Sv & _). destruct twice_case as (b & r & xs & ps & E & Ex & R).
  exists gw_x, page_cfg, (s_trace saved86), (s_file saved86), world_x, 2%nat, (plain_choices false), calls86, state86, (fst out86), (snd out86), (combine (KOpen (s_file saved86) :: calls86) [None; None; None; None]), b, r, xs, ps.
  split; [exact D|]. split; [exact A|]. split; [exact H|]. split; [exact Sv|]. split; [apply again_it; exact E|]. split; [exact Ex|exact R].
Qed.
