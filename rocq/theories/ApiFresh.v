(** Object numbers over whole histories. *)
From Coq Require Import String List ZArith Lia Bool Permutation.
From Coq.Floats Require Import SpecFloat.
From Verif Require Import Base BaseProofs Output OutputProofs Props PdfData PagesProofs Crawl Inject Crypto Png Utf8 Float64 Ttf Subset Text Wrap Parse Api ApiSpec ApiProofs ApiIds.
Open Scope Z_scope.
Open Scope list_scope.

Definition names_ok (s : state) : Prop :=
  NoDup (map snd (names_of s)) /\ Forall (fun k => (k < List.length (s_fonts s))%nat) (map snd (names_of s)).

Lemma same_names_ok : forall s s', same s s' -> names_ok s -> names_ok s'.
Proof.
  intros s s' [N K _] [D F]. unfold names_ok, names_of in *. rewrite N. split; [exact D|].
  replace (List.length (s_fonts s')) with (List.length (s_fonts s)); [exact F|].
  unfold skels in K. apply (f_equal (@List.length _)) in K. rewrite !map_length in K. symmetry. exact K.
Qed.
Lemma open_names_ok : forall w fuel raw s s' e, openFrom w fuel raw s = Ok (s', e) -> names_ok s'.
Proof.
  intros w fuel raw s s' e H. apply open_shape in H as (N & _). unfold names_ok, names_of. rewrite N. split; constructor.
Qed.
Lemma add_names_ok : forall n f b s s' e, addFont n f b s = Ok (s', e) -> names_ok s -> names_ok s'.
Proof.
  intros n f b s s' e H [D L]. unfold addFont in H. destruct (lookup _ _); [unfold fails in H; assert (s' = s) by congruence; subst; split; auto|].
  destruct (match f with Some d => parseTtf d | None => Err EOther end) as [t| | |]; try discriminate;
    [|unfold fails in H; assert (s' = s) by congruence; subst; split; auto].
  destruct (s_names s) as [ns|] eqn:N; [|discriminate]. unfold ok in H.
  unfold names_of in D, L. rewrite N in D, L.
  pose proof (f_equal (fun r => match r with Ok (a, _) => names_of a | _ => [] end) H) as E1.
  pose proof (f_equal (fun r => match r with Ok (a, _) => List.length (s_fonts a) | _ => O end) H) as E2.
  cbv beta iota in E1, E2. unfold names_ok. rewrite <- E1, <- E2. unfold names_of. cbn [s_names with_names s_fonts with_fonts].
  rewrite !map_app, app_length. cbn [map snd List.length]. split.
  - apply nodup_join; [exact D|constructor; [intros []|constructor]|]. intros x Hx [<-|[]]. rewrite Forall_forall in L. apply L in Hx. lia.
  - apply Forall_app. split; [|repeat constructor; lia]. eapply Forall_impl; [|exact L]. cbn. intros. lia.
Qed.
Lemma set_names_ok : forall n st sz s s' e, setFont n st sz s = Ok (s', e) -> names_ok s -> names_ok s'.
Proof.
  intros n st sz s s' e H O. unfold setFont in H. destruct (lookup _ _); unfold ok, fails in H.
  - injection H as <- <-. exact O.
  - assert (s' = s) by congruence. subst. exact O.
Qed.
Lemma history_names_ok : forall w fuel cs s s' log, history w fuel cs s = Ok (s', log) -> names_ok s -> names_ok s'.
Proof.
  induction cs as [|c cs IH]; intros s s' log H O; cbn [history] in H; [assert (s' = s) by congruence; subst; exact O|].
  apply bind_ok in H as ([s1 e] & E & H). cbn [fst snd] in H. apply bind_ok in H as ([s2 l2] & E2 & H). cbn [fst snd] in H.
  assert (s' = s2) by congruence. subst. apply IH in E2; auto. clear E2 H IH.
  destruct (about_fonts c) eqn:A.
  - destruct c; try discriminate; cbn [call_of] in E; [eapply open_names_ok|eapply add_names_ok|eapply set_names_ok]; eauto.
  - eapply same_names_ok; [|exact O]. eapply call_same; eauto.
Qed.

(** Saving after any history: the numbers of the file. *)
Theorem save_fresh : forall w fuel ch cs0 s0 log0 cs s log s' F,
  history w fuel cs0 new_pdft = Ok (s0, log0) ->
  history w fuel cs s0 = Ok (s, log) -> forallb (fun c => negb (is_open c)) cs = true ->
  fair (ch_ord ch) -> saveTo w fuel ch s = Ok (s', Ok F) ->
  exists os last fresh,
    F = toStream os last (root (d_pdf (s_doc s0))) (option_map enc_dict (s_prot s)) /\
    map oid (saved os last (option_map enc_dict (s_prot s))) = map oid (objs (d_pdf (s_doc s0))) ++ fresh /\
    fresh_after (map oid (objs (d_pdf (s_doc s0)))) fresh.
Proof.
  intros w fuel ch cs0 s0 log0 cs s log s' F H0 H A Fair Sv.
  assert (O : names_ok s). { eapply history_names_ok; [exact H|]. eapply history_names_ok; [exact H0|]. split; constructor. }
  destruct O as [ND _]. destruct (history_grows _ _ _ _ _ _ A H) as [R (new & E & Fr)].
  destruct (save_shape _ _ _ _ _ _ Sv Fair ND) as (_ & _ & os & last & fresh & EF & Eos & NDf & Lm & Ff & _).
  assert (Old : forall j, In j (map oid (objs (d_pdf (s_doc s)))) -> j <= maxID (objs (d_pdf (s_doc s)))).
  { intros j Hj. apply in_map_iff in Hj as (o & <- & Ho). apply maxID_ge. exact Ho. }
  pose proof (maxID_nonneg (objs (d_pdf (s_doc s)))) as P.
  rewrite Forall_forall in Ff.
  assert (F2 : fresh_after (map oid (objs (d_pdf (s_doc s)))) fresh).
  { split; [exact NDf|]. intros i Hi. apply Ff in Hi. split; [lia|]. intros j Hj. apply Old in Hj. lia. }
  rewrite R in EF. exists os, last. destruct (s_prot s) as [pr|] eqn:Pr; cbn [option_map] in *.
  - exists (new ++ fresh ++ [last + 1]). split; [exact EF|]. split.
    + cbn [saved]. rewrite map_app, Eos, E. cbn [map oid]. rewrite <- !app_assoc. reflexivity.
    + rewrite E in F2, Old. apply fresh_join; [exact Fr|]. apply fresh_join; [exact F2|].
      split; [constructor; [intros []|constructor]|]. intros i [<-|[]]. split; [lia|].
      intros j Hj. apply in_app_or in Hj as [Hj|Hj]; [apply Old in Hj; lia|apply Ff in Hj; lia].
  - exists (new ++ fresh). split; [exact EF|]. split.
    + cbn [saved]. rewrite Eos, E, app_assoc. reflexivity.
    + rewrite E in F2. apply fresh_join; [exact Fr|exact F2].
Qed.
