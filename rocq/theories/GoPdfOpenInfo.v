(** The trailer with what SetInfo was given, read by pdft. *)
From Coq Require Import String List ZArith Lia Bool.
From Coq.Floats Require Import SpecFloat.
From Verif Require Import Base BaseProofs Output OutputSpec OutputProofs Props PropsFlat PropsWrite PropsNorm PropsRefs PropsRead PropsSpec PropsFinal PagesEdit PdfData Float64 Utf8 Utf8Proofs Parse ParseFind ParseFile ParseTrailer GoPdf GoPdfDocSpec GoPdfOpenSpec.
Open Scope Z_scope.
Open Scope list_scope.

Definition itext (info : option ginfo) : bytes := match info with Some i => info_text i | None => [] end.
Definition real (info : option ginfo) : Prop := match info with Some i => real_info i | None => True end.
Definition full_dict (n : Z) (enc : option Z) (info : option ginfo) : bytes :=
  [10] ++ B"<<" ++ [10] ++ words n 1 enc ++ [10] ++ itext info ++ B">>" ++ [10].

(** ** Its characters *)

Definition hexc (c : Z) : Prop := 48 <= c <= 57 \/ 65 <= c <= 70.
Lemma hexdigits_chars : forall f n acc, 0 <= n -> Forall hexc acc -> Forall hexc (hexdigits f n acc).
Proof.
  assert (D : forall d, 0 <= d < 16 -> hexc (hexdigit d)) by (intros d H; unfold hexc, hexdigit; destruct (Z.ltb_spec d 10); lia).
  induction f as [|f IH]; intros n acc Hn Ha; cbn [hexdigits]; [exact Ha|]. destruct (Z.ltb_spec n 16); [constructor; [apply D; lia|exact Ha]|].
  apply IH; [apply Z.div_pos; lia|]. constructor; [apply D, Z.mod_pos_bound; lia|exact Ha].
Qed.
Lemma encode_chars : forall s, real_text s -> Forall hexc (encode_utf8 s).
Proof.
  intros s H. unfold encode_utf8. apply Forall_flat_map. assert (R : Forall scalar (runes s)) by (apply runes_scalar; eapply Forall_impl; [|exact H]; cbv beta; intros; lia).
  eapply Forall_impl; [|exact R]. intros r Hr. unfold hex4, pad0. apply Forall_app. split.
  - apply Forall_forall. intros c Hc. apply repeat_spec in Hc. subst c. unfold hexc. lia.
  - apply hexdigits_chars; [|constructor]. unfold scalar in Hr. lia.
Qed.

(** No s. *)
Lemma hex_no : forall s, Forall hexc s -> Forall (fun c => c <> 115) s.
Proof. intros s H. eapply Forall_impl; [|exact H]. unfold hexc. intros; lia. Qed.
Lemma entry_no : forall k v, lit_without 115 k = true -> real_text v -> Forall (fun c => c <> 115) (info_entry k v).
Proof.
  intros k v Hk Hv. unfold info_entry. destruct v as [|c v]; [constructor|]. set (x := c :: v) in *. clearbody x.
  apply Forall_app. split; [apply lit_without_spec; reflexivity|]. apply Forall_app. split; [apply lit_without_spec; exact Hk|]. apply Forall_app. split; [apply lit_without_spec; reflexivity|].
  apply Forall_app. split; [apply hex_no, encode_chars; exact Hv|apply lit_without_spec; reflexivity].
Qed.
Lemma itext_no : forall info, real info -> Forall (fun c => c <> 115) (itext info).
Proof.
  intros [i|] H; [|constructor]. destruct H as (H1 & H2 & H3 & H4 & H5 & H6). unfold itext, info_text.
  apply Forall_app. split; [apply lit_without_spec; reflexivity|]. apply Forall_app. split; [apply lit_without_spec; reflexivity|].
  do 5 (apply Forall_app; split; [apply entry_no; [reflexivity|assumption]|]).
  apply Forall_app. split; [|apply lit_without_spec; reflexivity]. destruct (i_date i) as [d|]; [|constructor].
  apply Forall_app. split; [apply lit_without_spec; reflexivity|]. apply Forall_app. split; [|apply lit_without_spec; reflexivity].
  eapply Forall_impl; [|exact H6]. unfold date_char. intros; lia.
Qed.

(** No row of a table. *)
Lemma run_stops : forall w c s, is_digit c = false -> (run_len is_digit (w ++ c :: s) <= List.length w)%nat.
Proof. induction w as [|x w IH]; intros c s H; cbn [app run_len List.length]; [rewrite H; lia|]. destruct (is_digit x); [specialize (IH c s H); lia|lia]. Qed.
Lemma quiet_word : forall w c s, Forall (fun x => is_blank x = false) w -> is_digit c = false -> is_blank c = false -> quiet m_xrefline w (c :: s).
Proof.
  intros w c s H Hc Hb. induction H as [|x w Hx H IH]; [exact Logic.I|]. split; [|exact IH]. clear IH.
  assert (Hw : Forall (fun x => is_blank x = false) (x :: w)) by (constructor; assumption). clear Hx H. set (u := x :: w) in *. clearbody u.
  unfold m_xrefline. pose proof (run_stops u c s Hc) as L. destruct (Nat.leb_spec 10 (run_len is_digit (u ++ c :: s))) as [Le|]; [|reflexivity].
  assert (K : run_len is_blank (skipn 10 (u ++ c :: s)) = 0%nat); [|rewrite K; reflexivity].
  rewrite skipn_app. replace (10 - List.length u)%nat with 0%nat by lia. change (skipn 0 (c :: s)) with (c :: s).
  destruct (skipn 10 u) as [|y v] eqn:E; cbn [app run_len]; [rewrite Hb; reflexivity|].
  rewrite Forall_forall in Hw. rewrite Hw; [reflexivity|]. rewrite <- (firstn_skipn 10 u), E. apply in_app_iff. right. left. reflexivity.
Qed.
Lemma entry_quiet : forall k v s, forallb (fun c => negb (is_digit c)) k = true -> real_text v -> quiet m_xrefline (info_entry k v) s.
Proof.
  intros k v s Hk Hv. unfold info_entry. destruct v as [|c v]; [exact Logic.I|]. set (x := c :: v) in *. clearbody x.
  apply quiet_app; [apply quiet_text; reflexivity|]. apply quiet_app; [apply quiet_text; exact Hk|]. apply quiet_app; [apply quiet_text; reflexivity|].
  apply quiet_app; [|apply quiet_text; reflexivity]. apply quiet_word; try reflexivity.
  eapply Forall_impl; [|apply encode_chars; exact Hv]. intros y Hy. unfold hexc, is_blank in *. lia.
Qed.
Lemma itext_quiet : forall info s, real info -> quiet m_xrefline (itext info) s.
Proof.
  intros [i|] s H; [|exact Logic.I]. destruct H as (H1 & H2 & H3 & H4 & H5 & H6). unfold itext, info_text.
  apply quiet_app; [apply quiet_text; reflexivity|]. apply quiet_app; [apply quiet_text; reflexivity|].
  do 5 (apply quiet_app; [apply entry_quiet; [reflexivity|assumption]|]).
  apply quiet_app; [|apply quiet_text; reflexivity]. destruct (i_date i) as [d|]; [|exact Logic.I].
  apply quiet_app; [apply quiet_text; reflexivity|]. apply quiet_app; [|apply quiet_text; reflexivity]. apply quiet_word; try reflexivity.
  eapply Forall_impl; [|exact H6]. intros y Hy. unfold date_char, is_blank in *. lia.
Qed.

(** ** Its properties *)

(** Whatever follows a dictionary that is complete so far leaves its entries. *)
Lemma flat_grow : forall s m ps p, exists more, flat s m (ps ++ [p]) = ps ++ more.
Proof.
  assert (U : forall f ps p, upd_last f (ps ++ [p]) = ps ++ [f p]).
  { intros f. induction ps as [|q ps IH]; intros p; [reflexivity|]. cbn [app]. rewrite <- IH. destruct (ps ++ [p]) eqn:E; [destruct ps; discriminate E|reflexivity]. }
  induction s as [|r s IH]; intros m ps p; [exists [p]; reflexivity|]. 
  assert (N : exists more, flat s MKey (new_prop (ps ++ [p])) = ps ++ more).
  { destruct (IH MKey (ps ++ [p]) (mkProp [] [])) as (more & E). exists (p :: more). unfold new_prop. rewrite E, <- app_assoc. reflexivity. }
  cbn [flat]. cbv zeta. unfold add_val, add_key. rewrite !U. destruct m as [| |c1 c2].
  - destruct (r =? 47); [exact N|apply IH].
  - destruct (r =? 32); [apply IH|]. destruct (r =? 60); [apply IH|]. destruct (r =? 91); [apply IH|]. destruct (r =? 47); [exact N|apply IH].
  - destruct (((r =? 93) || (r =? 62)) && ((cnt1 r c1 =? 0) && (cnt2 r c2 =? 0))); [apply IH|]. destruct ((r =? 47) && ((cnt1 r c1 =? 0) && (cnt2 r c2 =? 0))); [exact N|apply IH].
Qed.
Lemma flat_rest : forall es s m ps, ready m -> Forall ent_ascii es -> Forall (fun e => complete (eval e)) es ->
  exists m', ready m' /\ flat (rend es ++ s) m ps = flat s m' (ps ++ map ent_prop es).
Proof.
  induction es as [|e es IH]; intros s m ps R A C.
  - exists m. split; [exact R|]. cbn [rend flat_map map app]. rewrite app_nil_r. reflexivity.
  - inversion A; inversion C; subst. unfold rend. cbn [flat_map map]. rewrite <- app_assoc, flat_ent by assumption. change (flat_map rend1 es) with (rend es).
    assert (G : forall m', ready m' -> exists m'', ready m'' /\ flat (rend es ++ s) m' (ps ++ [ent_prop e]) = flat s m'' (ps ++ ent_prop e :: map ent_prop es)).
    { intros m' R'. destruct (IH s m' (ps ++ [ent_prop e]) R') as (m'' & R'' & E); [assumption|assumption|]. exists m''. split; [exact R''|]. rewrite E, <- app_assoc. reflexivity. }
    match goal with H : complete _ |- _ => destruct H as [Hc|Hc]; rewrite Hc end; [apply G; left; reflexivity|].
    destruct (efl e); [apply G; right; right; reflexivity|]. destruct (eval e); apply G; [right; left; reflexivity|right; right; reflexivity].
Qed.

Lemma norm_full : forall n enc s, norm (words n 1 enc ++ 10 :: 47 :: s) = rend (ents n 1 enc) ++ 47 :: norm s.
Proof.
  intros n enc s.
  set (tl := match enc with Some e => 10 :: 47 :: B"Encrypt" ++ 32 :: itoa e ++ B" 0 R" ++ 10 :: 47 :: B"ID" ++ 32 :: 91 :: B"()()]" ++ 10 :: 47 :: s | None => 10 :: 47 :: s end).
  assert (E : words n 1 enc ++ 10 :: 47 :: s = B"/Size" ++ 32 :: itoa (n + 1) ++ 10 :: 47 :: B"Root" ++ 32 :: itoa 1 ++ B" 0 R" ++ tl)
    by (unfold words, tl; destruct enc; rewrite <- ?app_assoc; repeat (rewrite <- ?app_assoc; rewrite <- ?app_comm_cons); reflexivity).
  assert (T : norm tl = match enc with Some e => 47 :: B"Encrypt" ++ 32 :: itoa e ++ B" 0 R" ++ B"/ID[()()]" | None => [] end ++ 47 :: norm s).
  { unfold tl. destruct enc as [e|]; [|rewrite norm_slash by auto; reflexivity]. rewrite norm_slash by auto. rewrite norm_entry by lit_nows. rewrite norm_ref.
    rewrite norm_slash by auto. rewrite norm_word by lit_nows. rewrite norm_bracket by auto. rewrite norm_word by lit_nows. rewrite norm_slash by auto.
    repeat (rewrite <- ?app_assoc; rewrite <- ?app_comm_cons). reflexivity. }
  rewrite E. rewrite norm_entry by lit_nows. rewrite norm_slash by auto. rewrite norm_entry by lit_nows. rewrite norm_ref, T.
  unfold rend, ents, rend1, refText. destruct enc as [e|]; cbn [app flat_map efl ekey eval]; repeat (rewrite <- app_assoc || rewrite <- app_comm_cons); reflexivity.
Qed.
Lemma ents_complete : forall n enc, Forall (fun e => complete (eval e)) (ents n 1 enc).
Proof.
  assert (N : forall n, complete (itoa n)) by (intros; right; apply num_run, itoa_ref_char).
  assert (R : forall n, complete (refText n)).
  { intros. right. apply num_run. apply Forall_app. split; [apply itoa_ref_char|].
    apply Forall_forall; intros c Hc; cbn in Hc; repeat destruct Hc as [<-|Hc]; try destruct Hc; unfold ref_char, num_char; lia. }
  intros n enc. unfold ents. cbn [app]. constructor; [apply N|]. constructor; [apply R|].
  destruct enc as [e|]; [|constructor]. constructor; [apply R|]. constructor; [|constructor]. left. reflexivity.
Qed.

Lemma full_read : forall n enc info, real info -> exists more, readProperties (full_dict n enc info) = Ok (map ent_prop (ents n 1 enc) ++ more).
Proof.
  intros n enc [i|] H; [|exists []; rewrite app_nil_r; apply trailer_read].
  assert (Ei : exists mid, info_text i = 47 :: mid ++ [62; 10]).
  { unfold info_text. exists (B"Info <<" ++ [10] ++ info_entry (B"Author") (i_author i) ++ info_entry (B"Title") (i_title i) ++ info_entry (B"Subject") (i_subject i)
      ++ info_entry (B"Creator") (i_creator i) ++ info_entry (B"Producer") (i_producer i)
      ++ match i_date i with None => [] | Some d => B"/CreationDate(D:" ++ d ++ B")>>" ++ [10] end ++ B" >").
    rewrite <- !app_assoc. reflexivity. }
  pose proof (itext_no _ H) as NI. unfold itext in NI. destruct Ei as (mid & Ei). rewrite Ei in NI.
  unfold readProperties. set (raw := full_dict n enc (Some i)).
  assert (Er : raw = [10] ++ B"<<" ++ [10] ++ words n 1 enc ++ [10] ++ (47 :: mid ++ [62; 10]) ++ B">>" ++ [10]) by (unfold raw, full_dict, itext; rewrite Ei; reflexivity).
  assert (NS : index stream_kw raw = None).
  { apply index_none. change stream_kw with (115 :: B"tream"). apply no_occ_hd. rewrite Er.
    apply Forall_app. split; [apply lit_without_spec; reflexivity|]. apply Forall_app. split; [apply lit_without_spec; reflexivity|].
    apply Forall_app. split; [apply lit_without_spec; reflexivity|]. apply Forall_app. split; [apply words_no; [lia|reflexivity]|].
    apply Forall_app. split; [apply lit_without_spec; reflexivity|]. apply Forall_app. split; [exact NI|apply lit_without_spec; reflexivity]. }
  rewrite NS.
  assert (I1 : index (B"<<") raw = Some 1%nat) by (rewrite Er; reflexivity). rewrite I1.
  set (core := words n 1 enc ++ 10 :: 47 :: mid ++ [62]). set (t := [10] ++ core ++ [10]).
  assert (E : raw = ([10] ++ B"<<" ++ t) ++ B">>" ++ [10]).
  { rewrite Er. unfold t, core. repeat (rewrite <- ?app_assoc; rewrite <- ?app_comm_cons). reflexivity. }
  assert (LI : last_index (B">>") raw = Some (List.length ([10] ++ B"<<" ++ t))) by (rewrite E; apply last_index_gt).
  rewrite LI. destruct (Nat.ltb_spec (List.length ([10] ++ B"<<" ++ t)) 1) as [L|L].
  { rewrite !app_length in L. change (List.length [10]) with 1%nat in L. change (List.length (B"<<")) with 2%nat in L. lia. }
  assert (SL : slice raw (Z.of_nat 1 + 2) (Z.of_nat (List.length ([10] ++ B"<<" ++ t))) = Ok t).
  { replace raw with (([10] ++ B"<<") ++ t ++ B">>" ++ [10]) by (rewrite E, <- !app_assoc; reflexivity).
    apply slice_app; [reflexivity|]. rewrite <- blen_app. unfold blen. now rewrite <- app_assoc. }
  rewrite SL. cbn [bind]. unfold t.
  assert (Tc : trimmed core).
  { unfold core. assert (W : exists w, words n 1 enc = 47 :: w) by (unfold words; eexists; reflexivity). destruct W as (w & ->).
    replace ((47 :: w) ++ 10 :: 47 :: mid ++ [62]) with (47 :: (w ++ 10 :: 47 :: mid) ++ [62]) by (repeat (rewrite <- ?app_assoc; rewrite <- ?app_comm_cons); reflexivity).
    apply trimmed_ascii; unfold ascii, is_space1; lia. }
  rewrite trim_space_pad by (auto; exact Tc). unfold core. rewrite norm_full, parse_props_flat.
  destruct (flat_rest (ents n 1 enc) (47 :: norm (mid ++ [62])) MNone []) as (m & Rm & ->); [left; reflexivity|apply ents_ascii|apply ents_complete|].
  rewrite flat_slash by exact Rm. rewrite app_nil_l. destruct (flat_grow (norm (mid ++ [62])) MKey (map ent_prop (ents n 1 enc)) (mkProp [] [])) as (more & ->). exists more. reflexivity.
Qed.
