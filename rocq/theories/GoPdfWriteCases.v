(** Cases of C92. *)
From Coq Require Import String List ZArith Lia Bool.
From Coq.Floats Require Import SpecFloat.
From Verif Require Import Base BaseProofs Utf8 Utf8Proofs Output Float64 Ttf TtfSpec TtfProofs TtfTables Subset Text TestFont TextCases SaveGoesFinal SaveGoesCases GoPdf GoPdfSpec GoPdfSetSpec GoPdfResSpec GoPdfCases GoPdfCallSpec GoPdfCallCases GoPdfTextSpec.
Open Scope Z_scope.
Open Scope list_scope.

(** ** A second font on the same line *)
Definition write_prog : list gcall := [a_font; AddFont (B"U") false 0 (Some test_font) [0; 0]; std_page; SetFont (B"T") 0 12; Text (B"A"); SetFont (B"U") 0 12].
Definition write_run := after write_prog.
Definition all_valid (l : list gcall) : Prop := forall c s, In c l -> call_text c = Some s -> valid_utf8 s.
Lemma calls_valid : forall (t : trace), all_valid (map (fun x => snd (fst x)) t) -> texts_valid t.
Proof. intros t H x s I. apply H. apply (in_map (fun x => snd (fst x)) _ _ I). Qed.
Lemma valid_small : forall a, 0 <= a < 128 -> valid_utf8 [a].
Proof. intros a H. exists [a]. split; [constructor; [unfold scalar; lia|constructor]|]. cbn [flat_map]. unfold utf8. destruct (Z.leb_spec a 127); [reflexivity|lia]. Qed.
Lemma has_b : font_has test_font (B"B").
Proof. intros tf c P. rewrite test_parses in P. injection P as <-. change (runes (B"B")) with [66]. intros [<-|[]]. eexists. vm_compute. reflexivity. Qed.
Lemma write_case : r_ok write_run = true /\ no_errors (r_trace write_run) = true /\ texts_valid (r_trace write_run) /\ added_once (r_trace write_run) /\ Forall (fun a => has_widths (af_file a)) (added (r_trace write_run)) /\
  s_font (settings_of page_cfg (r_trace write_run)) = Some (B"U", 0, 12) /\ font_has test_font (B"B") /\ ended (gstep gw_id (r_state write_run) (Text (B"B"))) = Some None.
Proof.
  split; [vm_compute; reflexivity|]. split; [vm_compute; reflexivity|]. assert (M : map (fun x => snd (fst x)) (r_trace write_run) = write_prog) by (vm_compute; reflexivity).
  assert (A : added (r_trace write_run) = [mkAF (B"T") 0 test_font false None; mkAF (B"U") 0 test_font false None]) by (vm_compute; reflexivity).
  split; [|split; [|split; [|split; [vm_compute; reflexivity|split; [exact has_b|vm_compute; reflexivity]]]]].
  - apply calls_valid. rewrite M. intros c s I. destruct I as [<-|[<-|[<-|[<-|[<-|[<-|[]]]]]]]; cbn [call_text]; intros E; try discriminate E. injection E as <-. apply (valid_small 65). lia.
  - unfold added_once. rewrite A. intros n m a b N K E _.
    destruct n as [|[|[|n]]]; cbn [nth_error] in N; try discriminate N; destruct m as [|[|[|m]]]; cbn [nth_error] in K; try discriminate K; try reflexivity; injection N as <-; injection K as <-; cbn [af_family] in E; discriminate E.
  - rewrite A. constructor; [exact test_widths|]. constructor; [exact test_widths|constructor].
Qed.

(** ** Texts that are not written *)
Definition ends_with (r : gends) (e : err) : bool := match r, e with Ok (_, Some ECharNotFound), ECharNotFound => true | _, _ => false end.
Lemma ends_with_ok : forall r e, ends_with r e = true -> exists g, r = Ok (g, Some e).
Proof. intros [[g [[]|]]| | |] [] H; try discriminate H. eauto. Qed.
Definition lost (l : list gcall) (text : bytes) (errors : bool) : Prop :=
  exists w rnd cfg g0 t g family style size a g', g_start rnd cfg gp0 = Ok g0 /\ runs w g0 t g /\ map (fun x => snd (fst x)) t = l /\ (errors = false -> Forall (fun x => snd x = None) t) /\
    Forall (fun a => has_widths (af_file a)) (added t) /\ s_font (settings_of cfg t) = Some (family, style, size) /\ font_for (added t) family style = Some a /\ font_has (af_file a) text /\ gstep w g (Text text) = Ok (g', Some ECharNotFound).
Lemma lost_case : forall l text errors family fs, r_ok (after l) = true -> (errors = false -> no_errors (r_trace (after l)) = true) -> ends_with (gstep gw_id (r_state (after l)) (Text text)) ECharNotFound = true ->
  added (r_trace (after l)) = fs -> Forall (fun a => af_file a = test_font) fs -> s_font (settings_of page_cfg (r_trace (after l))) = Some (family, 0, 12) ->
  font_for fs family 0 <> None -> font_has test_font text -> lost l text errors.
Proof.
  intros l text errors family fs O Ne P A Fs Sf Ff Fh. destruct (r_parts gw_id [] page_cfg l (after l) eq_refl O) as (g0 & S & R & M). destruct (ends_with_ok _ _ P) as (g' & Eg).
  destruct (font_for fs family 0) as [a|] eqn:Ea; [|destruct Ff; reflexivity]. exists gw_id, [], page_cfg, g0, (r_trace (after l)), (r_state (after l)), family, 0, 12, a, g'.
  split; [exact S|]. split; [exact R|]. split; [exact M|]. split; [intros Q; apply no_errors_ok; apply Ne; exact Q|]. rewrite A. split; [eapply Forall_impl; [|exact Fs]; intros x ->; exact test_widths|].
  split; [exact Sf|]. split; [exact Ea|]. split; [|exact Eg]. unfold font_for in Ea. apply find_some in Ea. destruct Ea as (I & _). rewrite Forall_forall in Fs. rewrite (Fs _ I). exact Fh.
Qed.
(** The two bytes of U+00E9 in two calls. *)
Definition half_prog : list gcall := [a_font; std_page; SetFont (B"T") 0 12; Text [195]].
Lemma half_case : lost half_prog [169] false.
Proof.
  apply (lost_case _ _ _ (B"T") [mkAF (B"T") 0 test_font false None]); [vm_compute; reflexivity|intros _; vm_compute; reflexivity|vm_compute; reflexivity|vm_compute; reflexivity|constructor; [reflexivity|constructor]|vm_compute; reflexivity|vm_compute; discriminate|].
  intros tf c P. rewrite test_parses in P. injection P as <-. change (runes [169]) with [65533]. intros [<-|[]]. eexists. vm_compute. reflexivity.
Qed.
(** The text stays in the line, so that no later text of the line is written. *)
Lemma stuck_case : lost (half_prog ++ [Text [169]]) (B"B") true.
Proof.
  apply (lost_case _ _ _ (B"T") [mkAF (B"T") 0 test_font false None]); [vm_compute; reflexivity|intros Q; discriminate Q|vm_compute; reflexivity|vm_compute; reflexivity|constructor; [reflexivity|constructor]|vm_compute; reflexivity|vm_compute; discriminate|exact has_b].
Qed.
(** Two fonts with the same number: the second font is added under a name and a style
    that a font with an underlined style has already. *)
Definition twin_prog : list gcall := [AddFont (B"U") false 0 (Some test_font) [0; 0]; AddFont (B"T") false 4 (Some test_font) [0; 0]; a_font; std_page; SetFont (B"U") 0 12; Text (B"A"); SetFont (B"T") 0 12].
Lemma twin_case : all_valid twin_prog /\ lost twin_prog (B"B") false.
Proof.
  split.
  - intros c s I. unfold twin_prog in I. destruct I as [<-|[<-|[<-|[<-|[<-|[<-|[<-|[]]]]]]]]; cbn [call_text]; intros E; try discriminate E. injection E as <-. apply (valid_small 65). lia.
  - apply (lost_case _ _ _ (B"T") [mkAF (B"U") 0 test_font false None; mkAF (B"T") 4 test_font false None; mkAF (B"T") 0 test_font false None]);
      [vm_compute; reflexivity|intros _; vm_compute; reflexivity|vm_compute; reflexivity|vm_compute; reflexivity|repeat (constructor; [reflexivity|]); constructor|vm_compute; reflexivity|vm_compute; discriminate|exact has_b].
Qed.
