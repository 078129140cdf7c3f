(** Calls that come back with an error, in any state (C93). *)
From Coq Require Import String List ZArith Lia Bool.
From Coq.Floats Require Import SpecFloat.
From Verif Require Import Base BaseProofs Output Png Crypto Float64 Ttf Subset CharMap Text GoPdf GoPdfSpec GoPdfFile GoPdfPages GoPdfKeep GoPdfResSpec GoPdfCases GoPdfCallCases GoPdfWriteCases GoPdfFail.
Open Scope Z_scope.
Open Scope list_scope.

(** ** The statement *)
(** Of what is drawn on a page only a text at the end is another one, or new. *)
Definition last_text (cs cs' : list gcache) : Prop :=
  exists x, cs' = cs ++ [CText x] \/ exists l a, cs = l ++ [CText a] /\ cs' = l ++ [CText x].
Definition object_after (g : gp) (i : nat) (o o' : gobj) : Prop :=
  o' = o \/ (Z.of_nat i = g_content g /\ exists s cs cs', o_kind o = KContent s cs /\ o' = mkGO (o_buf o) (KContent s cs') /\ last_text cs cs').
(** Fonts with other characters to embed, the drawing of the page with another text at
    its end, and perhaps one object more: a new drawing. *)
Definition but_text (g g' : gp) : Prop :=
  exists fs os k, g' = g_set_content (g_set_objs (g_set_fonts g fs) os) k /\
    Forall2 (fun f f' => exists m, f' = gf_set_map f m) (g_fonts g) fs /\
    (forall i o, nth_error (g_objs g) i = Some o -> exists o', nth_error os i = Some o' /\ object_after g i o o') /\
    (List.length os = List.length (g_objs g) /\ k = g_content g \/
     g_content g <= -1 /\ k = Z.of_nat (List.length (g_objs g)) /\ exists x, os = g_objs g ++ [new_obj (KContent [] [CText x])]).

(** ** The proof *)
Lemma map_same : forall f, gf_set_map f (gf_map f) = f. Proof. intros []. reflexivity. Qed.
Lemma fonts_same : forall fs, Forall2 (fun f f' => exists m, f' = gf_set_map f m) fs fs.
Proof. induction fs as [|f fs IH]; constructor; [exists (gf_map f); symmetry; apply map_same|exact IH]. Qed.
Lemma fonts_set : forall fs n m, Forall2 (fun f f' => exists m, f' = gf_set_map f m) fs (set_nth n (fun f => gf_set_map f m) fs).
Proof.
  induction fs as [|f fs IH]; intros [|n] m; cbn [set_nth]; constructor; try apply fonts_same; try apply IH.
  - exists m. reflexivity.
  - exists (gf_map f). symmetry. apply map_same.
Qed.
Lemma but_fonts : forall g fs, Forall2 (fun f f' => exists m, f' = gf_set_map f m) (g_fonts g) fs -> but_text g (g_set_fonts g fs).
Proof.
  intros g fs H. exists fs, (g_objs g), (g_content g). split; [reflexivity|]. split; [exact H|]. split; [|left; split; reflexivity].
  intros i o N. exists o. split; [exact N|left; reflexivity].
Qed.
Lemma append_fails : forall fs l c t cs' x y e, append_text fs l c t = (cs', x, y, Err e) -> x = x_x c /\ y = x_y c /\ last_text l cs'.
Proof.
  intros fs l c t cs' x y e H. unfold append_text in H.
  assert (X : exists before cur, (match rev l with CText old :: r => if is_same old c then (rev r, old) else (l, c) | _ => (l, c) end) = (before, cur) /\ (before = l \/ exists a, l = before ++ [CText a])).
  { destruct (rev l) as [|k r] eqn:R; [eexists _, _; split; [reflexivity|left; reflexivity]|].
    assert (E : l = rev r ++ [k]) by (rewrite <- (rev_involutive l), R; reflexivity).
    destruct k as [old| | | | | | | | |]; try (eexists _, _; split; [reflexivity|left; reflexivity]).
    destruct (is_same old c); eexists _, _; (split; [reflexivity|]); [right; exists old; exact E|left; reflexivity]. }
  destruct X as (before & cur & E & HB). rewrite E in H. destruct (nth_error fs (x_font cur)) as [f|]; [|discriminate].
  destruct (create_content f cur (x_text cur ++ t)) as (cur', r). destruct r as [[a b]| | |]; try discriminate. injection H as <- <- <- _.
  split; [reflexivity|]. split; [reflexivity|]. exists cur'. destruct HB as [->|(a & ->)]; [left; reflexivity|right; eauto].
Qed.
Lemma text_any : forall cell rect al bo fl t g g' e, text_call cell rect al bo fl t g = Ok (g', Some e) -> but_text g g'.
Proof.
  intros cell rect al bo fl t g g' e H. unfold text_call, add_text_chars in H. destruct (u_font (g_cur g)) as [n|]; [|discriminate]. destruct (nth_error (g_fonts g) n) as [f|]; [|discriminate].
  destruct (add_chars (gf_ttf f) t (gf_map f)) as (m, r). pose proof (fonts_set (g_fonts g) n m) as HF. set (fs := set_nth n (fun f => gf_set_map f m) (g_fonts g)) in *. clearbody fs.
  destruct r; cbn [bind] in H; try discriminate; [|injection H as <- _; apply but_fonts; exact HF].
  unfold put_text in H. destruct (getContent (g_set_fonts g fs)) as [[[[g1 i] s] cs]| | |] eqn:E; cbn [bind] in H; try discriminate.
  cbv zeta in H. match type of H with context [append_text ?a ?b ?c ?d] => destruct (append_text a b c d) as [[[cs' x] y] r] eqn:EA end.
  destruct r as [|e1| |]; try discriminate. injection H as <- _. apply append_fails in EA. cbn [x_x x_y g_cur g_set_fonts] in EA. destruct EA as (-> & -> & LT).
  assert (U : u_set_xy (g_cur g) (u_x (g_cur g)) (u_y (g_cur g)) = g_cur g) by (destruct (g_cur g); reflexivity).
  change (g_cur (g_set_fonts g fs)) with (g_cur g). rewrite U. clear U. unfold getContent in E. change (g_content (g_set_fonts g fs)) with (g_content g) in E. destruct (g_content g <=? -1) eqn:Ec.
  - apply Z.leb_le in Ec. cbn [addObj] in E. injection E as <- <- <- <-.
    assert (LX : exists z, cs' = [CText z]). { destruct LT as (z & [->|(l0 & a0 & LL & _)]); [exists z; reflexivity|destruct l0; discriminate LL]. } destruct LX as (z & ->).
    exists fs, (g_objs g ++ [new_obj (KContent [] [CText z])]), (Z.of_nat (List.length (g_objs g))). split; [|split; [exact HF|split]].
    + unfold put_kind, g_set_content, g_set_objs, g_set_cur, g_set_fonts. cbn [g_left g_top g_objs g_cfg g_pages g_first g_cur g_content g_procset g_buf g_cap g_prot g_enc g_level g_info g_fonts].
      f_equal. rewrite Nat2Z.id. clear. induction (g_objs g) as [|o l IH]; [reflexivity|]. cbn [List.length set_nth app]. f_equal. exact IH.
    + intros j o N. exists o. split; [|left; reflexivity]. rewrite nth_error_app1; [exact N|]. apply nth_error_Some. congruence.
    + right. split; [exact Ec|]. split; [reflexivity|]. exists z. reflexivity.
  - destruct (kind_at (g_set_fonts g fs) (g_content g)) as [k| | |] eqn:K; cbn [bind] in E; try discriminate. destruct k; try discriminate. injection E as <- <- <- <-.
    apply kind_at_nth in K. destruct K as (o0 & N0 & E0 & P0). change (g_objs (g_set_fonts g fs)) with (g_objs g) in N0.
    exists fs, (set_nth (Z.to_nat (g_content g)) (fun o => mkGO (o_buf o) (KContent stream cs')) (g_objs g)), (g_content g). split; [reflexivity|]. split; [exact HF|]. split.
    + intros j o N. rewrite nth_set_at. destruct (Nat.eqb_spec (Z.to_nat (g_content g)) j) as [<-|D].
      * rewrite N. cbn [option_map]. eexists. split; [reflexivity|]. right. split; [lia|]. assert (o0 = o) by congruence. subst o0. eexists _, _, _. split; [exact E0|]. split; [reflexivity|exact LT].
      * exists o. split; [exact N|left; reflexivity].
    + left. split; [|reflexivity]. clear. generalize (Z.to_nat (g_content g)). induction (g_objs g) as [|o l IH]; intros [|n]; try reflexivity. cbn [set_nth List.length]. f_equal. apply IH.
Qed.
Theorem any_fail : forall w g c g' e, gstep w g c = Ok (g', Some e) -> but_text g g'.
Proof.
  intros w g c g' e H. destruct (call_text c) as [text|] eqn:Ct.
  - destruct c; try discriminate Ct; cbn [gstep] in H; try (eapply text_any; exact H).
    unfold g_measure, add_text_chars in H. destruct (u_font (g_cur g)) as [n|]; [|discriminate]. destruct (nth_error (g_fonts g) n) as [f|]; [|discriminate].
    destruct (add_chars _ _ _) as (m, r). destruct r; cbn [bind] in H; try discriminate. injection H as <- _. apply but_fonts. apply fonts_set.
  - assert (g' = g) by (eapply others_fail; eauto). subst g'. pose proof (but_fonts g (g_fonts g) (fonts_same _)) as X. destruct g. exact X.
Qed.
(** The failing text of [C93_joined_refuted]: it stays at the end of the line. *)
Lemma any_case : match gstep gw_id (r_state (after half_prog)) (Text [169]) with
  | Ok (g', Some _) => (pages_text g', List.length (g_objs g'), g_content g')
  | _ => ([], O, 0) end = ([[195; 169]], List.length (g_objs (r_state (after half_prog))), g_content (r_state (after half_prog))) /\ 0 <= g_content (r_state (after half_prog)).
Proof. split; [vm_compute; reflexivity|]. vm_compute. discriminate. Qed.
