(** A wrapped text, an image in base 64 and a cached image, from the calls to the
    file (C72). *)
From Coq Require Import String List ZArith Lia Bool Permutation Reals Lra.
From Coq.Floats Require Import SpecFloat.
From Verif Require Import Base BaseProofs Output OutputSpec Props PropsSpec PdfData PagesSpec PagesProofs Crawl Inject InjectSpec ContentSpec ImgSpec Utf8 Float64 Ttf TtfSpec TtfProofs CharMap Subset TestFont Text TextSpec TextPlaceSpec TextCases TextFinal TextPlace TextPlaced
  Wrap FontObjects FontChainSpec FontChain Parse Png Md5Rc4 Crypto Api ApiSpec ApiProofs ApiIds ApiFrames ApiImages ApiMore ApiCases SaveSpec SaveDoc SaveWhole SaveLockSpec SaveLock SaveCheck SaveCases SaveDrawSpec SaveDraws SaveCalls SaveDrawn SaveWrapSpec SaveMore SaveDrawCases PlaceCases.
Open Scope Z_scope.
Open Scope list_scope.

Definition library_breaker (t : bytes) : res (list bytes) := Ok (break_text t).
Definition wrap_call : call := KWrap (B"AB AB") 1 (fofz 10) (fofz 20) (fofz 15) (fofz 20) 0 None (Some library_breaker).
Definition call64 : call := KImg64 [] [1] 2 (fofz 10) (fofz 20) (fofz 100) (fofz 20).
Definition cache_call (x : Z) : call := KImgCache [] [2] 2 (fofz x) (fofz 20) (fofz 100) (fofz 20).
Definition wrap_state : state := state_of [wrap_call] first_state.
Definition state64 : state := state_of [call64] wrap_state.
Definition cache_state : state := state_of [cache_call 10] state64.
Definition cache_state2 : state := state_of [cache_call 30] cache_state.
Definition more_saved : state * bytes := match saveTo plain_world 5 (plain_choices false) cache_state2 with Ok (s', Ok F) => (s', F) | _ => (new_pdft, []) end.
Definition second_line : f64 := fadd (fofz 20) (fadd (fofz 12) (fmul (fofz 12) (fconst 2 10))).

Lemma more_run : exists s1 s2 s3 s4 s s' F,
  history plain_world 5 calls_first new_pdft = Ok (s1, quiet calls_first) /\
  call_of plain_world 5 wrap_call s1 = Ok (s2, None) /\ call_of plain_world 5 call64 s2 = Ok (s3, None) /\ call_of plain_world 5 (cache_call 10) s3 = Ok (s4, None) /\
  call_of plain_world 5 (cache_call 30) s4 = Ok (s, None) /\ saveTo plain_world 5 (plain_choices false) s = Ok (s', Ok F) /\
  d_pdf (s_doc s) = shared_doc /\ s_prot s = None /\ (blen F <? 10 ^ 10) = true /\
  pageHeight s1 1 = Ok (fofz 100) /\ pageHeight s2 2 = Ok (fofz 200) /\ pageHeight s4 2 = Ok (fofz 200) /\
  option_map (fun f => snd (wrap_lines (sfont_of f) 12 (fofz 15) (fofz 20) 0 (break_text (B"AB AB")))) (nth_error (s_fonts s1) 0) = Some (Ok [(B"AB", fofz 20); (B"AB", second_line)]) /\
  option_map (fun f => (fd_map f, fd_rise f, match measure (sfont_of f) 12 (B"AB") with Ok v => paperb v | _ => true end)) (nth_error (s_fonts s) 0) = Some ([(65, 1); (66, 2); (32, 0)], None, true).
Proof.
  exists first_state, wrap_state, state64, cache_state, cache_state2, (fst more_saved), (snd more_saved).
  split; [vm_compute; reflexivity|]. split; [vm_compute; reflexivity|]. split; [vm_compute; reflexivity|]. split; [vm_compute; reflexivity|]. split; [vm_compute; reflexivity|].
  split; [vm_compute; reflexivity|]. split; [vm_compute; reflexivity|]. split; [vm_compute; reflexivity|]. split; [vm_compute; reflexivity|].
  split; [vm_compute; reflexivity|]. split; [vm_compute; reflexivity|]. split; [vm_compute; reflexivity|]. split; vm_compute; reflexivity.
Qed.

Ltac on_it := apply paperb_on; vm_compute; reflexivity.
Lemma forall2_given : forall (A C : Type) (P : A -> Prop) (R : A -> C -> Prop) l m, Forall2 (fun x y => P x -> R x y) l m -> Forall P l -> Forall2 R l m.
Proof. intros A C P R l m H. induction H as [|x y l m H1 H2 IH]; intros F; inversion F; subst; constructor; auto. Qed.
Lemma wrapped_case : exists s1 s2 s s' F p' f line opss,
  history plain_world 5 calls_first new_pdft = Ok (s1, quiet calls_first) /\ call_of plain_world 5 wrap_call s1 = Ok (s2, None) /\
  saveTo plain_world 5 (plain_choices false) s = Ok (s', Ok F) /\ file_of F p' /\ fd_family f = B"T" /\ drawn_on (objs p') 3 4 (B"q Q ") (List.concat opss) /\
  Forall2 (fun l ops => exists fps, page_fonts (objs p') 3 fps /\
    shows_text plain_world (objs p') fps f lined_font 2000 1600 (-400) (mkText (fst l) None 0 12 1 (fofz 10) (snd l) (fofz 15) (fofz 20) 0 line (fofz 100)) ops)
    [(B"AB", fofz 20); (B"AB", second_line)] opss.
Proof.
  destruct more_run as (s1 & s2 & s3 & s4 & s & s' & F & H1 & C1 & C2 & C3 & C4 & Sv & Ed & Pr & Sz & P1 & P2 & P3 & Wl & Fo). apply Z.ltb_lt in Sz.
  assert (H2 : history plain_world 5 [call64; cache_call 10; cache_call 30] s2 = Ok (s, quiet [call64; cache_call 10; cache_call 30])).
  { apply (history_join _ _ [call64] [cache_call 10; cache_call 30] _ _ _ _ _ (history_single _ _ _ _ _ _ C2)). apply (history_join _ _ [cache_call 10] [cache_call 30] _ _ _ _ _ (history_single _ _ _ _ _ _ C3)). exact (history_single _ _ _ _ _ _ C4). }
  destruct (wrapped_lines_from_calls plain_world 5 (plain_choices false) calls_first s1 (quiet calls_first) (B"AB AB") 1 (fofz 10) (fofz 20) (fofz 15) (fofz 20) 0 None library_breaker (break_text (B"AB AB")) s2 [call64; cache_call 10; cache_call 30] (quiet [call64; cache_call 10; cache_call 30]) s s' F
    2 leaves35 shared_fonts shared_images shared_srcs None (B"T") [] 12 0%nat lined_font 2000 1600 (-400) (-150) 100 H1)
    as (p' & ins & f0 & f & line & ph & lines & Fh & SD & Hf0 & Hf & Fam & Wr & _ & Ep & Pg).
  - exists [(KOpen shared_file, None); (KAddFont (B"T") (Some lined_font) [0; 0; 0; 0], None)], []. split; reflexivity.
  - exists [(KOpen shared_file, None)], [0; 0; 0; 0], [(KSetFont (B"T") [] 12, None)]. split; [reflexivity|]. split; reflexivity.
  - reflexivity.
  - exact C1.
  - exact H2.
  - reflexivity.
  - reflexivity.
  - exact Sv.
  - intros k A l. apply Permutation_refl.
  - exact Pr.
  - rewrite Ed. exact shared_ready.
  - rewrite Ed. exact shared_sources.
  - rewrite Ed. exact shared_apart.
  - cbn. lia.
  - rewrite Ed. vm_compute. discriminate.
  - exact Sz.
  - exact lined_file.
  - repeat (constructor; [cbn; auto|]). constructor.
  - on_it.
  - on_it.
  - on_it.
  - lia.
  - intros ph E. rewrite P1 in E. assert (ph = fofz 100) by congruence. subst. on_it.
  - intros f Hf. rewrite Hf in Fo. cbn [option_map] in Fo. apply (f_equal (fun x => match x with Some y => y | None => ([], None, true) end)) in Fo.
    pose proof (f_equal (fun x => fst (fst x)) Fo) as F1. cbn [fst snd] in F1. rewrite F1. repeat (constructor; [split; unfold code; cbn [fst snd]; lia|]). constructor.
  - rewrite Hf0 in Wl. cbn [option_map] in Wl. assert (El : lines = [(B"AB", fofz 20); (B"AB", second_line)]) by congruence. clear Wl Wr. subst lines.
    rewrite Hf in Fo. cbn [option_map] in Fo. apply (f_equal (fun x => match x with Some y => y | None => ([], None, true) end)) in Fo.
    pose proof (f_equal (fun x => snd (fst x)) Fo) as F2. pose proof (f_equal snd Fo) as F3. cbn [fst snd] in F2, F3. clear Fo.
    assert (St : forall y, on_paper y -> settable lined_font f 12 (B"AB", y)).
    { intros y Hy. split; [exact lined_widths|]. split; [exact Hy|]. split; [unfold rise_fin, sfont_of; cbn [sf_rise]; rewrite F2; exact Logic.I|].
      intros v Hv. cbn [fst] in Hv. rewrite Hv in F3. apply paperb_on. exact F3. }
    pose proof shared_old as So. rewrite <- Ed in So. destruct (Pg 3 4 (B"q Q ") _ page_one So) as (opss & Dr & Sh). rewrite P1 in Ep.
    assert (ph = fofz 100) by (destruct Ep as [Ep|Ep]; [discriminate|congruence]). subst ph.
    exists s1, s2, s, s', F, p', f, line, opss. repeat (split; [assumption|]). split; [apply Dr; discriminate|].
    eapply forall2_given; [exact Sh|]. constructor; [apply St; on_it|]. constructor; [apply St; on_it|]. constructor.
Qed.

Lemma image64_case : exists s2 s3 s s' F p' xps data ops,
  call_of plain_world 5 call64 s2 = Ok (s3, None) /\ saveTo plain_world 5 (plain_choices false) s = Ok (s', Ok F) /\
  file_of F p' /\ page_images (objs p') 5 xps /\ drawn_on (objs p') 5 6 (B"n ") ops /\ made plain_world [1] data /\ shows_image (objs p') xps data 10 20 100 20 200 ops.
Proof.
  destruct more_run as (s1 & s2 & s3 & s4 & s & s' & F & H1 & C1 & C2 & C3 & C4 & Sv & Ed & Pr & Sz & P1 & P2 & P3 & Wl & Fo). apply Z.ltb_lt in Sz. clear Wl Fo.
  assert (H2 : history plain_world 5 [cache_call 10; cache_call 30] s3 = Ok (s, quiet [cache_call 10; cache_call 30])).
  { apply (history_join _ _ [cache_call 10] [cache_call 30] _ _ _ _ _ (history_single _ _ _ _ _ _ C3)). exact (history_single _ _ _ _ _ _ C4). }
  pose proof (history_join _ _ _ [wrap_call] _ _ _ _ _ H1 (history_single _ _ _ _ _ _ C1)) as H1'.
  destruct (image64_from_calls plain_world 5 (plain_choices false) _ s2 _ [] [1] 2 (fofz 10) (fofz 20) (fofz 100) (fofz 20) s3 [cache_call 10; cache_call 30] (quiet [cache_call 10; cache_call 30]) s s' F
    2 leaves35 shared_fonts shared_images shared_srcs None H1' C2 H2 Sv)
    as (p' & ins & img & data & pc & ph & ops & Fh & SD & Eb & Ei & Ep & Pg).
  - intros k A l. apply Permutation_refl.
  - exact Pr.
  - rewrite Ed. exact shared_ready.
  - rewrite Ed. exact shared_sources.
  - rewrite Ed. exact shared_apart.
  - cbn. lia.
  - rewrite Ed. vm_compute. discriminate.
  - exact Sz.
  - on_it.
  - on_it.
  - on_it.
  - on_it.
  - intros ph E. rewrite P2 in E. assert (ph = fofz 200) by congruence. subst. on_it.
  - destruct (Pg 5 6 (B"n ") page_two shared_pictured) as (Dr & xps' & Pf & Sh). rewrite P2 in Ep. assert (ph = fofz 200) by congruence. subst ph.
    assert (V : forall n, (Z.abs n <= 2 ^ 53)%Z -> val (fofz n) = IZR n) by (intros n Hn; apply FloatReal.fofz_exact; exact Hn).
    rewrite !V in Sh by lia. assert (img = [1]) by (cbn [plain_world w_base64] in Eb; congruence). subst img.
    exists s2, s3, s, s', F, p', xps', data, ops. repeat (split; [assumption|]). split; [|exact Sh]. exists [], (d_pdf (s_doc s2)), pc. exact Ei.
Qed.

(** The second use of the same bytes. *)
Lemma cached_case : exists s3 s4 s s' F p' xps data ops,
  call_of plain_world 5 (cache_call 10) s3 = Ok (s4, None) /\ call_of plain_world 5 (cache_call 30) s4 = Ok (s, None) /\ saveTo plain_world 5 (plain_choices false) s = Ok (s', Ok F) /\
  file_of F p' /\ page_images (objs p') 5 xps /\ drawn_on (objs p') 5 6 (B"n ") ops /\ made plain_world [2] data /\ shows_image (objs p') xps data 30 20 100 20 200 ops.
Proof.
  destruct more_run as (s1 & s2 & s3 & s4 & s & s' & F & H1 & C1 & C2 & C3 & C4 & Sv & Ed & Pr & Sz & P1 & P2 & P3 & Wl & Fo). apply Z.ltb_lt in Sz. clear Wl Fo.
  pose proof (history_join _ _ _ [wrap_call] _ _ _ _ _ H1 (history_single _ _ _ _ _ _ C1)) as H2.
  pose proof (history_join _ _ _ [call64] _ _ _ _ _ H2 (history_single _ _ _ _ _ _ C2)) as H3.
  pose proof (history_join _ _ _ [cache_call 10] _ _ _ _ _ H3 (history_single _ _ _ _ _ _ C3)) as H4.
  destruct (cached_from_calls plain_world 5 (plain_choices false) _ s4 _ [] [2] 2 (fofz 30) (fofz 20) (fofz 100) (fofz 20) s [] [] s s' F
    2 leaves35 shared_fonts shared_images shared_srcs None H4 C4 eq_refl Sv)
    as (p' & ins & img & data & ph & ops & Fh & SD & Wh & _ & Md & Ep & Pg).
  - intros k A l. apply Permutation_refl.
  - exact Pr.
  - rewrite Ed. exact shared_ready.
  - rewrite Ed. exact shared_sources.
  - rewrite Ed. exact shared_apart.
  - cbn. lia.
  - rewrite Ed. vm_compute. discriminate.
  - exact Sz.
  - on_it.
  - on_it.
  - on_it.
  - on_it.
  - intros ph E. rewrite P3 in E. assert (ph = fofz 200) by congruence. subst. on_it.
  - destruct (Pg 5 6 (B"n ") page_two shared_pictured) as (Dr & xps' & Pf & Sh). rewrite P3 in Ep. assert (ph = fofz 200) by congruence. subst ph.
    assert (V : forall n, (Z.abs n <= 2 ^ 53)%Z -> val (fofz n) = IZR n) by (intros n Hn; apply FloatReal.fofz_exact; exact Hn).
    rewrite !V in Sh by lia. assert (img = [2]).
    { destruct Wh as [Wh|Wh]; [exact Wh|]. cbn [cached flat_map quiet calls_first map List.app wrap_call call64 cache_call] in Wh. destruct Wh as [Wh|[]]. congruence. }
    subst img. exists s3, s4, s, s', F, p', xps', data, ops. repeat (split; [assumption|]). exact Sh.
Qed.
