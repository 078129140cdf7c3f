(** Programs for the examples of Prop_GoPdfSet.v. *)
From Coq Require Import String List ZArith Lia Bool.
From Coq.Floats Require Import SpecFloat.
From Verif Require Import Base Float64 Ttf Subset Text TestFont GoPdf GoPdfSpec GoPdfSetSpec GoPdfCases.
Open Scope Z_scope.
Open Scope list_scope.

Definition prog_set : list gcall :=
  [TextColor (1, 2, 3); a_font; AddFont (B"U") false 0 (Some test_font) [0; 0]; AddPage (fofz 50, fofz 60); LineWidth (fofz 2); SetFontString (B"T") (B"U") 12; SetFont (B"no") 0 14; SetX (fofz 30); LeftMargin (fofz 7); Br (fofz 5); Text (B"A")].
Definition saved_set := save gw_id [] page_cfg prog_set.
Lemma nth_split_list : forall A (l : list A) n x, nth_error l n = Some x -> l = firstn n l ++ x :: skipn (S n) l.
Proof. intros A. induction l as [|y l IH]; intros [|n] x H; try discriminate; cbn [nth_error firstn skipn app] in *; [congruence|]. f_equal. apply IH. exact H. Qed.
Definition state_at (n : nat) (t : trace) : gp := match nth_error t n with Some (q, _, _) => q | None => gp0 end.
Lemma set_case : exists t F a q b, document gw_id [] page_cfg t F /\ map (fun x => snd (fst x)) t = prog_set /\ t = a ++ (q, Text (B"A"), None) :: b /\
  settings_of page_cfg a = mkSet (1, 2, 3) (fofz 0) (fofz 2) (fofz 7) (fofz 10) (fofz 50, fofz 60) (Some (B"T", 4, 12)) /\
  map af_family (added a) = [B"T"; B"U"] /\ u_x (g_cur q) = fofz 7 /\ u_y (g_cur q) = fofz 15.
Proof.
  destruct (s_document gw_id [] page_cfg prog_set saved_set eq_refl ltac:(vm_compute; reflexivity)) as (D & P).
  exists (s_trace saved_set), (s_file saved_set), (firstn 10 (s_trace saved_set)), (state_at 10 (s_trace saved_set)), (skipn 11 (s_trace saved_set)).
  split; [exact D|]. split; [exact P|]. split; [|split; [vm_compute; reflexivity|split; [vm_compute; reflexivity|split; vm_compute; reflexivity]]].
  apply nth_split_list. vm_compute. reflexivity.
Qed.
