(** The trailer dictionary that toStream writes, read back. *)
From Coq Require Import String List ZArith Lia Bool.
From Verif Require Import Base BaseProofs Output OutputSpec OutputProofs Props PropsFlat PropsWrite PropsNorm PropsRefs PropsRead PagesEdit ParseFile.
Open Scope Z_scope.
Open Scope list_scope.

Definition nows (w : bytes) : Prop := Forall (fun c => is_ws4 c = false) w.

Lemma collapse_word : forall w s, nows w -> collapse (w ++ s) = w ++ collapse s.
Proof. induction 1; cbn [app collapse]; auto. rewrite H. congruence. Qed.

Lemma norm_word : forall w s, nows w -> norm (w ++ s) = w ++ norm s.
Proof. intros w s H. unfold norm. rewrite collapse_word by auto. rewrite !strip_nows by auto. reflexivity. Qed.

Lemma norm_cons : forall c s, is_ws4 c = false -> norm (c :: s) = c :: norm s.
Proof. intros c s H. apply (norm_word [c]). constructor; auto. Qed.

Lemma collapse_gap : forall c d s, is_ws4 c = true -> is_ws4 d = false -> collapse (c :: d :: s) = 32 :: d :: collapse s.
Proof. intros c d s H1 H2. cbn [collapse]. rewrite H1, H2. reflexivity. Qed.

Lemma strip_gap : forall p pat d s, is_ws4 d = false -> (d <> p) -> strip (p :: pat) (32 :: d :: s) = 32 :: d :: strip (p :: pat) s.
Proof.
  intros p pat d s H1 H2. cbn [strip skip_ws]. rewrite H1. cbn [prefixb].
  destruct (Z.eqb_spec p d); [congruence|]. reflexivity.
Qed.
Lemma strip_hit : forall p d s, is_ws4 d = false -> d = p -> strip [p] (32 :: d :: s) = d :: strip [p] s.
Proof.
  intros p d s H1 ->. cbn [strip skip_ws]. rewrite H1. cbn [prefixb]. rewrite Z.eqb_refl. reflexivity.
Qed.

(** One gap in front of an ordinary character stays, as one blank. *)
Lemma norm_gap : forall c d s, is_ws4 c = true -> is_ws4 d = false -> d <> 47 -> d <> 91 -> d <> 93 -> d <> 60 -> d <> 62 ->
  norm (c :: d :: s) = 32 :: d :: norm s.
Proof.
  intros. unfold norm. rewrite collapse_gap by auto.
  change (B"/") with [47]. change (B"[") with [91]. change (B"]") with [93]. change (B"<<") with [60; 60]. change (B">>") with [62; 62].
  rewrite !strip_gap by auto. reflexivity.
Qed.

Lemma norm_slash : forall c s, is_ws4 c = true -> norm (c :: 47 :: s) = 47 :: norm s.
Proof.
  intros. unfold norm. rewrite collapse_gap by auto.
  change (B"/") with [47]. change (B"[") with [91]. change (B"]") with [93]. change (B"<<") with [60; 60]. change (B">>") with [62; 62].
  rewrite strip_hit by auto. rewrite !strip_hd by auto. reflexivity.
Qed.

Lemma norm_bracket : forall c s, is_ws4 c = true -> norm (c :: 91 :: s) = 91 :: norm s.
Proof.
  intros. unfold norm. rewrite collapse_gap by auto.
  change (B"/") with [47]. change (B"[") with [91]. change (B"]") with [93]. change (B"<<") with [60; 60]. change (B">>") with [62; 62].
  rewrite strip_gap by (auto; discriminate). rewrite strip_hit by auto. rewrite !strip_hd by auto. reflexivity.
Qed.

Lemma num_nows : forall n, nows (itoa n).
Proof. intros n. eapply Forall_impl; [|apply itoa_chars]. intros c H. unfold num_char, is_ws4 in *. lia. Qed.

(** A number after a blank. *)
Lemma norm_num : forall c n s, is_ws4 c = true -> norm (c :: itoa n ++ s) = 32 :: itoa n ++ norm s.
Proof.
  intros c n s Hc. pose proof (itoa_chars n) as H. pose proof (num_nows n) as W. destruct (itoa n) as [|d w] eqn:E; [now apply itoa_nonnil in E|].
  inversion H; inversion W; subst. cbn [app].
  rewrite norm_gap; auto; try (unfold num_char in *; lia). now rewrite norm_word.
Qed.

Definition words (size root : Z) (enc : option Z) : bytes :=
  B"/Size " ++ itoa (size + 1) ++ [10] ++ B"/Root " ++ itoa root ++ B" 0 R"
  ++ match enc with Some e => [10] ++ B"/Encrypt " ++ itoa e ++ B" 0 R" ++ [10] ++ B"/ID [()()]" | None => [] end.

Definition ents (size root : Z) (enc : option Z) : list ent :=
  [mkEnt true (B"Size") (itoa (size + 1)); mkEnt true (B"Root") (refText root)]
  ++ match enc with Some e => [mkEnt true (B"Encrypt") (refText e); mkEnt false (B"ID") (B"[()()]")] | None => [] end.

Lemma norm_ref : forall s, norm (B" 0 R" ++ s) = B" 0 R" ++ norm s.
Proof.
  intros s. change (B" 0 R" ++ s) with (32 :: 48 :: 32 :: 82 :: s). rewrite norm_gap by (auto; discriminate).
  rewrite norm_gap by (auto; discriminate). reflexivity.
Qed.

Lemma norm_entry : forall k n s, nows k -> norm (k ++ 32 :: itoa n ++ s) = k ++ 32 :: itoa n ++ norm s.
Proof. intros. rewrite norm_word by auto. now rewrite norm_num. Qed.

Ltac lit_nows := apply Forall_forall; intros c Hc; cbn in Hc; repeat destruct Hc as [<-|Hc]; auto; destruct Hc.

Lemma norm_words : forall size root enc, norm (words size root enc) = rend (ents size root enc).
Proof.
  intros size root enc.
  set (tl := match enc with Some e => 10 :: 47 :: B"Encrypt" ++ 32 :: itoa e ++ B" 0 R" ++ [10] ++ B"/ID [()()]" | None => [] end).
  assert (E : words size root enc = B"/Size" ++ 32 :: itoa (size + 1) ++ 10 :: 47 :: B"Root" ++ 32 :: itoa root ++ B" 0 R" ++ tl)
    by (unfold words, tl; destruct enc; reflexivity).
  assert (T : norm tl = match enc with Some e => 47 :: B"Encrypt" ++ 32 :: itoa e ++ B" 0 R" ++ B"/ID[()()]" | None => [] end).
  { unfold tl. destruct enc as [e|]; [|reflexivity]. rewrite norm_slash by auto. rewrite norm_entry by lit_nows. rewrite norm_ref. reflexivity. }
  rewrite E. rewrite norm_entry by lit_nows. rewrite norm_slash by auto. rewrite norm_entry by lit_nows. rewrite norm_ref, T.
  unfold rend, ents, rend1, refText. destruct enc as [e|]; cbn [app flat_map efl ekey eval]; repeat (rewrite <- app_assoc || rewrite <- app_comm_cons); reflexivity.
Qed.

Lemma ents_ascii : forall size root enc, Forall ent_ascii (ents size root enc).
Proof.
  assert (A : forall n, Forall ascii (itoa n)).
  { intros n. eapply Forall_impl; [|apply itoa_chars]. intros c H. unfold num_char, ascii in *. lia. }
  assert (R : forall n, Forall ascii (refText n)).
  { intros n. apply Forall_app. split; auto. apply Forall_forall; intros c Hc; cbn in Hc; repeat destruct Hc as [<-|Hc]; try destruct Hc; unfold ascii; lia. }
  assert (K : forall k, forallb (fun c => (65 <=? c) && (c <=? 122) && negb (c =? 91)) k = true -> Forall key_char k).
  { intros k H. apply Forall_forall. intros c Hc. rewrite forallb_forall in H. apply H in Hc. unfold key_char, ascii, is_ws4. lia. }
  intros size root enc. unfold ents. apply Forall_app. split.
  - constructor; [|constructor; [|constructor]].
    + split; [apply K; reflexivity|split; [exact (A _)|intros H; discriminate H]].
    + split; [apply K; reflexivity|split; [exact (R _)|intros H; discriminate H]].
  - destruct enc as [e|]; [|constructor]. constructor; [|constructor; [|constructor]].
    + split; [apply K; reflexivity|split; [exact (R _)|intros H; discriminate H]].
    + split; [apply K; reflexivity|split].
      * apply Forall_forall; intros c Hc; cbn in Hc; repeat destruct Hc as [<-|Hc]; try destruct Hc; unfold ascii; lia.
      * intros _. right. exists 91, (B"()()]"). split; [reflexivity|auto].
Qed.

Lemma ents_run : forall size root enc, run_ok (ents size root enc).
Proof.
  assert (N : forall n, complete (itoa n)) by (intros; right; apply num_run, itoa_ref_char).
  assert (R : forall n, complete (refText n)).
  { intros. right. apply num_run. apply Forall_app. split; [apply itoa_ref_char|].
    apply Forall_forall; intros c Hc; cbn in Hc; repeat destruct Hc as [<-|Hc]; try destruct Hc; unfold ref_char, num_char; lia. }
  intros size root enc. unfold ents. cbn [app]. constructor; [apply N|]. constructor; [apply R|].
  destruct enc as [e|]; [|constructor]. constructor; [apply R|]. constructor. cbn [eval]. discriminate.
Qed.

Definition trailer_dict (size root : Z) (enc : option Z) : bytes :=
  [10] ++ B"<<" ++ [10] ++ words size root enc ++ [10] ++ B">>" ++ [10].

Lemma last_index_gt : forall a, last_index (B">>") (a ++ B">>" ++ [10]) = Some (List.length a).
Proof.
  intros a. apply last_index_intro.
  - exists a, [10]. auto.
  - intros m Hm (u & v & E & L).
    assert (Hl : List.length (u ++ B">>" ++ v) = (List.length a + 3)%nat) by (rewrite <- E, !app_length; reflexivity).
    rewrite !app_length in Hl. change (List.length (B">>")) with 2%nat in Hl.
    assert (v = []) by (destruct v; [auto|cbn [List.length] in Hl; lia]). subst v.
    assert (Hr : last (a ++ B">>" ++ [10]) 0 = last (u ++ B">>" ++ []) 0) by (now rewrite E).
    rewrite app_nil_r in Hr. rewrite app_assoc in Hr. rewrite !last_app_nn in Hr by discriminate. cbn in Hr. discriminate.
Qed.

Lemma words_trimmed : forall size root enc, trimmed (words size root enc).
Proof.
  intros. unfold words. destruct enc as [e|].
  - replace (B"/Size " ++ itoa (size + 1) ++ [10] ++ B"/Root " ++ itoa root ++ B" 0 R" ++ [10] ++ B"/Encrypt " ++ itoa e ++ B" 0 R" ++ [10] ++ B"/ID [()()]")
      with (47 :: (B"Size " ++ itoa (size + 1) ++ [10] ++ B"/Root " ++ itoa root ++ B" 0 R" ++ [10] ++ B"/Encrypt " ++ itoa e ++ B" 0 R" ++ [10] ++ B"/ID [()()") ++ [93])
      by (rewrite <- !app_assoc; reflexivity).
    apply trimmed_ascii; unfold ascii, is_space1; lia.
  - replace (B"/Size " ++ itoa (size + 1) ++ [10] ++ B"/Root " ++ itoa root ++ B" 0 R" ++ [])
      with (47 :: (B"Size " ++ itoa (size + 1) ++ [10] ++ B"/Root " ++ itoa root ++ B" 0 ") ++ [82])
      by (rewrite <- !app_assoc; reflexivity).
    apply trimmed_ascii; unfold ascii, is_space1; lia.
Qed.

Lemma words_no : forall x size root enc, 57 < x -> lit_without x (B"/Size/Root R/Encrypt/ID[()()]") = true ->
  Forall (fun c => c <> x) (words size root enc).
Proof.
  intros x size root enc Hx H.
  assert (L : forall s, (forall c, In c s -> c <= 57 \/ In c (B"/Size/Root R/Encrypt/ID[()()]")) -> Forall (fun c => c <> x) s).
  { intros s Hs. apply Forall_forall. intros c Hc E. subst. destruct (Hs _ Hc) as [|G]; [lia|].
    unfold lit_without in H. rewrite forallb_forall in H. apply H in G. lia. }
  assert (N : forall n, Forall (fun c => c <> x) (itoa n)) by (intros; apply numch_ne; [lia|apply itoa_numch]).
  unfold words.
  repeat (apply Forall_app; split; auto); try (apply L; intros c Hc; cbn in Hc |- *; repeat destruct Hc as [<-|Hc]; try destruct Hc; (right; tauto) || (left; lia)).
  destruct enc; [|constructor].
  repeat (apply Forall_app; split; auto); try (apply L; intros c Hc; cbn in Hc |- *; repeat destruct Hc as [<-|Hc]; try destruct Hc; (right; tauto) || (left; lia)).
Qed.

Lemma trailer_read : forall size root enc, readProperties (trailer_dict size root enc) = Ok (map ent_prop (ents size root enc)).
Proof.
  intros. unfold readProperties.
  assert (NS : index stream_kw (trailer_dict size root enc) = None).
  { apply index_none. change stream_kw with (115 :: B"tream"). apply no_occ_hd. unfold trailer_dict.
    apply Forall_app. split; [apply lit_without_spec; reflexivity|]. apply Forall_app. split; [apply lit_without_spec; reflexivity|].
    apply Forall_app. split; [apply lit_without_spec; reflexivity|]. apply Forall_app. split; [apply words_no; [lia|reflexivity]|].
    apply lit_without_spec; reflexivity. }
  rewrite NS.
  assert (I : index (B"<<") (trailer_dict size root enc) = Some 1%nat) by reflexivity. rewrite I.
  set (t := [10] ++ words size root enc ++ [10]).
  assert (E : trailer_dict size root enc = ([10] ++ B"<<" ++ t) ++ B">>" ++ [10]) by (unfold trailer_dict, t; rewrite <- !app_assoc; reflexivity).
  assert (LI : last_index (B">>") (trailer_dict size root enc) = Some (List.length ([10] ++ B"<<" ++ t))) by (rewrite E; apply last_index_gt).
  rewrite LI. destruct (Nat.ltb_spec (List.length ([10] ++ B"<<" ++ t)) 1) as [L|L].
  { rewrite !app_length in L. change (List.length [10]) with 1%nat in L. change (List.length (B"<<")) with 2%nat in L. lia. }
  assert (SL : slice (trailer_dict size root enc) (Z.of_nat 1 + 2) (Z.of_nat (List.length ([10] ++ B"<<" ++ t))) = Ok t).
  { replace (trailer_dict size root enc) with (([10] ++ B"<<") ++ t ++ B">>" ++ [10]) by (rewrite E, <- !app_assoc; reflexivity).
    apply slice_app; [reflexivity|]. rewrite <- blen_app. unfold blen. now rewrite <- app_assoc. }
  rewrite SL. cbn [bind]. unfold t.
  rewrite trim_space_pad by (auto; apply words_trimmed).
  rewrite norm_words, parse_props_flat, flat_rend; [reflexivity|left; reflexivity|apply ents_ascii|apply ents_run].
Qed.

Lemma trailer_root : forall size root enc,
  getPropByKey (B"Root") (map ent_prop (ents size root enc)) = Some (mkProp (B"Root") (refText root)).
Proof. reflexivity. Qed.
