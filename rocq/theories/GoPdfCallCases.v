(** Cases of C90. *)
From Coq Require Import String List ZArith Lia Bool.
From Coq.Floats Require Import SpecFloat.
From Verif Require Import Base BaseProofs Utf8 Output Float64 Ttf TtfSpec TtfProofs TtfTables Subset Text TestFont TextCases GoPdf GoPdfSpec GoPdfSetSpec GoPdfCases KernCases GoPdfCallSpec.
Open Scope Z_scope.
Open Scope list_scope.

(** ** A font with widths *)
Definition check_widths (d : bytes) : bool :=
  match locate d (B"head"), locate d (B"hhea"), locate d (B"hmtx") with
  | Some (h, _), Some (e, _), Some (x, _) =>
    match u16 d (h + 18), u16 d (e + 34) with
    | Some u, Some n => (0 <? u) && (0 <? n) && forallb (fun i => match u16 d (x + 4 * i) with Some _ => true | None => false end) (upto n)
    | _, _ => false
    end
  | _, _, _ => false
  end.
Lemma check_widths_ok : forall d, Forall bytep d -> check_widths d = true -> has_widths d.
Proof.
  intros d Hb H. unfold check_widths in H. destruct (locate d (B"head")) as [(h, hl)|] eqn:E1; [|discriminate]. destruct (locate d (B"hhea")) as [(e, el)|] eqn:E2; [|discriminate].
  destruct (locate d (B"hmtx")) as [(x, xl)|] eqn:E3; [|discriminate]. apply locate_ok in E1, E2, E3. destruct (u16 d (h + 18)) as [u|] eqn:U; [|discriminate]. destruct (u16 d (e + 34)) as [n|] eqn:N; [|discriminate].
  apply andb_true_iff in H. destruct H as (H & W). apply andb_true_iff in H. destruct H as (Hu & Hn). split; [exact Hb|]. split; [exists u; split; [exists h, hl; auto|lia]|].
  intros g Hg. rewrite forallb_forall in W. specialize (W (Z.min g (n - 1)) (in_upto n (Z.min g (n - 1)) ltac:(lia))). destruct (u16 d (x + 4 * Z.min g (n - 1))) as [w|] eqn:Ew; [|discriminate].
  exists w, e, el, x, xl, n. split; [exact E2|]. split; [exact E3|]. split; [exact N|]. split; [lia|exact Ew].
Qed.
Lemma test_widths : has_widths test_font.
Proof. apply check_widths_ok; [apply small_bytes; vm_compute; reflexivity|vm_compute; reflexivity]. Qed.

(** ** Programs *)
Definition ended (r : gends) : option (option err) := match r with Ok (_, e) => Some e | _ => None end.
Definition begun : list gcall := [a_font; std_page; SetFont (B"T") 0 12; Text (B"A")].
Definition after (l : list gcall) := run gw_id [] page_cfg l.
Definition is_panic (r : gends) : bool := match r with Panic => true | _ => false end.
Lemma is_panic_ok : forall r, is_panic r = true -> r = Panic. Proof. intros [ | | | ] H; try discriminate H. reflexivity. Qed.

Lemma calls_case : r_ok (after begun) = true /\ no_errors (r_trace (after begun)) = true /\ map af_file (added (r_trace (after begun))) = [test_font] /\ has_widths test_font /\ s_font (settings_of page_cfg (r_trace (after begun))) = Some (B"T", 0, 12) /\
  map (fun c => ended (gstep gw_id (r_state (after begun)) c)) [Text (B"BA"); SetFont (B"T") 4 9; SetFont (B"T") 2 9; KernOverride (B"U") None; AddFont (B"U") true 0 (Some [1; 2; 3]) []; ImageBy [] [1; 2; 3] [] (fofz 1) (fofz 1) None; SetX (fofz 5)] =
    [Some None; Some None; Some (Some EOther); Some (Some EOther); Some (Some EOther); Some (Some EOther); Some None].
Proof. split; [vm_compute; reflexivity|]. split; [vm_compute; reflexivity|]. split; [vm_compute; reflexivity|]. split; [exact test_widths|]. split; vm_compute; reflexivity. Qed.

(** ** Calls at which a program is at its end *)
Lemma dies_case : forall l c, r_ok (after l) = true -> no_errors (r_trace (after l)) = true -> is_panic (gstep gw_id (r_state (after l)) c) = true ->
  exists w rnd cfg g0 t g, g_start rnd cfg gp0 = Ok g0 /\ runs w g0 t g /\ map (fun x => snd (fst x)) t = l /\ Forall (fun x => snd x = None) t /\ gstep w g c = Panic.
Proof.
  intros l c O N P. destruct (r_parts gw_id [] page_cfg l (after l) eq_refl O) as (g0 & S & R & M). exists gw_id, [], page_cfg, g0, (r_trace (after l)), (r_state (after l)).
  split; [exact S|]. split; [exact R|]. split; [exact M|]. split; [apply no_errors_ok; exact N|apply is_panic_ok; exact P].
Qed.
Lemma no_font_case : exists w rnd cfg g0 t g, g_start rnd cfg gp0 = Ok g0 /\ runs w g0 t g /\ map (fun x => snd (fst x)) t = [a_font; std_page] /\ Forall (fun x => snd x = None) t /\ gstep w g (Text []) = Panic.
Proof. apply dies_case; vm_compute; reflexivity. Qed.
Lemma measure_case : exists w rnd cfg g0 t g, g_start rnd cfg gp0 = Ok g0 /\ runs w g0 t g /\ map (fun x => snd (fst x)) t = begun /\ Forall (fun x => snd x = None) t /\ gstep w g (Measure (B"A")) = Panic.
Proof. apply dies_case; vm_compute; reflexivity. Qed.
