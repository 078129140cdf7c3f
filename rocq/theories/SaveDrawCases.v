(** A text and an image, from the calls to the enciphered file (C72). *)
From Coq Require Import String List ZArith Lia Bool Permutation Reals Lra.
From Coq.Floats Require Import SpecFloat.
From Verif Require Import Base BaseProofs Output OutputSpec Props PropsSpec PdfData PagesSpec PagesProofs Crawl Inject InjectSpec ContentSpec ImgSpec Utf8 Float64 Ttf TtfSpec TtfProofs CharMap Subset TestFont Text TextSpec TextPlaceSpec TextCases TextFinal TextPlace TextPlaced
  Wrap FontObjects FontChainSpec FontChain Parse Png Crypto Api ApiSpec ApiProofs ApiIds ApiFrames ApiImages ApiMore ApiCases SaveSpec SaveDoc SaveWhole SaveLockSpec SaveLock SaveCheck SaveCases SaveDrawSpec SaveDraws SaveCalls SaveDrawn PlaceCases.
Open Scope Z_scope.
Open Scope list_scope.

Definition calls_first : list call := [KOpen shared_file; KAddFont (B"T") (Some lined_font) [0; 0; 0; 0]; KSetFont (B"T") [] 12].
Definition calls_then : list call := [put_img [1] 2; KProtect [] 4 (B"user") (B"owner")].
Definition state_of (cs : list call) (s : state) : state := match history plain_world 5 cs s with Ok (s', _) => s' | _ => s end.
Definition first_state : state := state_of calls_first new_pdft.
Definition text_state : state := state_of [put_text (B"AB")] first_state.
Definition image_state : state := state_of [put_img [1] 2] text_state.
Definition drawn_state : state := state_of calls_then text_state.
Definition drawn_saved : state * bytes := match saveTo plain_world 5 (plain_choices false) drawn_state with Ok (s', Ok F) => (s', F) | _ => (new_pdft, []) end.
Definition quiet : list call -> list entry := map (fun c => (c, None)).

Lemma lined_file : face_file lined_font 2000 1600 (-400) (-150) 100.
Proof.
  destruct (lined_set 0 0) as [R U L Un Th _ _ _]. destruct R as (Hb & Hl & _). constructor; try assumption.
Qed.
Lemma lined_widths : has_widths lined_font (B"AB").
Proof.
  intros t r g P Hr Hg. destruct (lined_set 0 0) as [R _ _ _ _ _ _ _]. destruct R as (_ & _ & P2 & _ & _ & Q). apply (Q r g Hr). congruence.
Qed.

Lemma drawn_run : exists s1 s2 s3 s s' F pr,
  history plain_world 5 calls_first new_pdft = Ok (s1, quiet calls_first) /\
  call_of plain_world 5 (put_text (B"AB")) s1 = Ok (s2, None) /\ call_of plain_world 5 (put_img [1] 2) s2 = Ok (s3, None) /\
  history plain_world 5 calls_then s2 = Ok (s, quiet calls_then) /\ saveTo plain_world 5 (plain_choices false) s = Ok (s', Ok F) /\
  d_pdf (s_doc s) = shared_doc /\ s_prot s = Some pr /\ setProtection [] 4 (B"user") (B"owner") = Ok pr /\ (blen F <? 10 ^ 10) = true /\
  pageHeight s1 1 = Ok (fofz 100) /\ pageHeight s2 2 = Ok (fofz 200) /\
  option_map (fun f => (fd_map f, fd_rise f, match measure (sfont_of f) 12 (B"AB") with Ok v => paperb v | _ => true end)) (nth_error (s_fonts s) 0) = Some ([(65, 1); (66, 2)], None, true).
Proof.
  exists first_state, text_state, image_state, drawn_state, (fst drawn_saved), (snd drawn_saved). eexists.
  split; [vm_compute; reflexivity|]. split; [vm_compute; reflexivity|]. split; [vm_compute; reflexivity|]. split; [vm_compute; reflexivity|]. split; [vm_compute; reflexivity|].
  split; [vm_compute; reflexivity|]. split; [vm_compute; reflexivity|]. split; [vm_compute; reflexivity|]. split; [vm_compute; reflexivity|].
  split; [vm_compute; reflexivity|]. split; [vm_compute; reflexivity|]. vm_compute; reflexivity.
Qed.
Lemma history_rest : forall w fuel c cs s s1 e s' log, call_of w fuel c s = Ok (s1, e) -> history w fuel (c :: cs) s = Ok (s', log) -> exists l, history w fuel cs s1 = Ok (s', l).
Proof.
  intros w fuel c cs s s1 e s' log H1 H2. cbn [history] in H2. rewrite H1 in H2. cbn [bind fst snd] in H2. apply bind_ok in H2 as ([s4 l4] & H2 & E). cbn [fst snd] in E.
  assert (s4 = s') by congruence. subst. exists l4. exact H2.
Qed.
Lemma history_single : forall w fuel c s s1 e, call_of w fuel c s = Ok (s1, e) -> history w fuel [c] s = Ok (s1, [(c, e)]).
Proof. intros w fuel c s s1 e H. cbn [history]. rewrite H. reflexivity. Qed.
Lemma page_one : own_page leaves35 shared_srcs 1 3 4 (B"q Q ").
Proof.
  split; [lia|]. split; [reflexivity|]. split; [reflexivity|]. intros [|[|j]] t H; [reflexivity|discriminate|destruct j; discriminate].
Qed.
Lemma page_two : own_page leaves35 shared_srcs 2 5 6 (B"n ").
Proof.
  split; [lia|]. split; [reflexivity|]. split; [reflexivity|]. intros [|[|j]] t H; [discriminate|reflexivity|destruct j; discriminate].
Qed.

Lemma text_case : exists s1 s2 s s' F p' f fps line ops,
  history plain_world 5 calls_first new_pdft = Ok (s1, quiet calls_first) /\ call_of plain_world 5 (put_text (B"AB")) s1 = Ok (s2, None) /\
  history plain_world 5 calls_then s2 = Ok (s, quiet calls_then) /\ saveTo plain_world 5 (plain_choices false) s = Ok (s', Ok F) /\
  locked_file F p' (B"user") (B"owner") /\ fd_family f = B"T" /\ page_fonts (objs p') 3 fps /\ drawn_on (objs p') 3 4 (B"q Q ") ops /\
  shows_text plain_world (objs p') fps f lined_font 2000 1600 (-400) (mkText (B"AB") None 0 12 1 (fofz 10) (fofz 20) (fofz 100) (fofz 20) 0 line (fofz 100)) ops.
Proof.
  destruct drawn_run as (s1 & s2 & s3 & s & s' & F & pr & H1 & C1 & C2 & H2 & Sv & Ed & Pr & Sp & Sz & P1 & P2 & Fo). apply Z.ltb_lt in Sz.
  destruct (text_from_calls plain_world 5 (plain_choices false) calls_first s1 (quiet calls_first) (B"AB") 1 (fofz 10) (fofz 20) (fofz 100) (fofz 20) 0 None s2 calls_then (quiet calls_then) s s' F
    2 leaves35 shared_fonts shared_images shared_srcs (Some (B"user", B"owner")) (B"T") [] 12 0%nat lined_font 2000 1600 (-400) (-150) 100 H1)
    as (p' & ins & f & line & ph & ops & Fh & SD & Hf & Fam & Ep & Pg).
  - exists [(KOpen shared_file, None); (KAddFont (B"T") (Some lined_font) [0; 0; 0; 0], None)], []. split; reflexivity.
  - exists [(KOpen shared_file, None)], [0; 0; 0; 0], [(KSetFont (B"T") [] 12, None)]. split; [reflexivity|]. split; reflexivity.
  - exact C1.
  - exact H2.
  - reflexivity.
  - reflexivity.
  - exact Sv.
  - intros k A l. apply Permutation_refl.
  - exists pr, [], 4. split; [exact Pr|]. split; [exact Sp|]. lia.
  - rewrite Ed. exact shared_ready.
  - rewrite Ed. exact shared_sources.
  - rewrite Ed. exact shared_apart.
  - cbn. lia.
  - rewrite Ed. vm_compute. discriminate.
  - exact Sz.
  - exact lined_file.
  - exact lined_widths.
  - repeat (constructor; [cbn; auto|]). constructor.
  - apply paperb_on. vm_compute. reflexivity.
  - apply paperb_on. vm_compute. reflexivity.
  - apply paperb_on. vm_compute. reflexivity.
  - apply paperb_on. vm_compute. reflexivity.
  - lia.
  - intros ph E. rewrite P1 in E. assert (ph = fofz 100) by congruence. subst. apply paperb_on. vm_compute. reflexivity.
  - intros f Hf. rewrite Hf in Fo. cbn [option_map] in Fo. apply (f_equal (fun x => match x with Some y => y | None => ([], None, true) end)) in Fo.
    pose proof (f_equal (fun x => fst (fst x)) Fo) as F1. pose proof (f_equal (fun x => snd (fst x)) Fo) as F2. pose proof (f_equal snd Fo) as F3. cbn [fst snd] in F1, F2, F3. split; [|split].
    + rewrite F1. repeat (constructor; [split; unfold code; cbn [fst snd]; lia|]). constructor.
    + unfold rise_fin, sfont_of. cbn [sf_rise]. rewrite F2. exact Logic.I.
    + intros v Hv. rewrite Hv in F3. apply paperb_on. exact F3.
  - pose proof shared_old as So. rewrite <- Ed in So. destruct (Pg 3 4 (B"q Q ") _ page_one So) as (Dr & fps' & Pf & Sh). rewrite P1 in Ep. assert (ph = fofz 100) by congruence. subst ph.
    exists s1, s2, s, s', F, p', f, fps', line, ops. repeat (split; [assumption|]). exact Sh.
Qed.
Lemma image_case : exists s2 s3 s s' F p' xps data ops,
  history plain_world 5 (calls_first ++ [put_text (B"AB")]) new_pdft = Ok (s2, quiet (calls_first ++ [put_text (B"AB")])) /\
  call_of plain_world 5 (put_img [1] 2) s2 = Ok (s3, None) /\ saveTo plain_world 5 (plain_choices false) s = Ok (s', Ok F) /\
  locked_file F p' (B"user") (B"owner") /\ page_images (objs p') 5 xps /\ drawn_on (objs p') 5 6 (B"n ") ops /\
  shows_image (objs p') xps data 10 20 100 20 200 ops.
Proof.
  destruct drawn_run as (s1 & s2 & s3 & s & s' & F & pr & H1 & C1 & C2 & H2 & Sv & Ed & Pr & Sp & Sz & P1 & P2 & Fo). apply Z.ltb_lt in Sz. clear Fo.
  destruct (history_rest _ _ _ _ _ _ _ _ _ C2 H2) as (l3 & H3).
  assert (H1' : history plain_world 5 (calls_first ++ [put_text (B"AB")]) new_pdft = Ok (s2, quiet (calls_first ++ [put_text (B"AB")]))).
  { unfold quiet. rewrite map_app. apply (history_join _ _ _ _ _ _ _ _ _ H1). exact (history_single _ _ _ _ _ _ C1). }
  destruct (image_from_calls plain_world 5 (plain_choices false) (calls_first ++ [put_text (B"AB")]) s2 _ [] [1] 2 (fofz 10) (fofz 20) (fofz 100) (fofz 20) s3 _ l3 s s' F
    2 leaves35 shared_fonts shared_images shared_srcs (Some (B"user", B"owner")) H1' C2 H3 Sv)
    as (p' & ins & data & pc & ph & ops & Fh & SD & Ei & Ep & Pg).
  - intros k A l. apply Permutation_refl.
  - exists pr, [], 4. split; [exact Pr|]. split; [exact Sp|]. lia.
  - rewrite Ed. exact shared_ready.
  - rewrite Ed. exact shared_sources.
  - rewrite Ed. exact shared_apart.
  - cbn. lia.
  - rewrite Ed. vm_compute. discriminate.
  - exact Sz.
  - apply paperb_on. vm_compute. reflexivity.
  - apply paperb_on. vm_compute. reflexivity.
  - apply paperb_on. vm_compute. reflexivity.
  - apply paperb_on. vm_compute. reflexivity.
  - intros ph E. rewrite P2 in E. assert (ph = fofz 200) by congruence. subst. apply paperb_on. vm_compute. reflexivity.
  - destruct (Pg 5 6 (B"n ") page_two shared_pictured) as (Dr & xps' & Pf & Sh). rewrite P2 in Ep. assert (ph = fofz 200) by congruence. subst ph.
    assert (V : forall n, (Z.abs n <= 2 ^ 53)%Z -> val (fofz n) = IZR n) by (intros n Hn; apply FloatReal.fofz_exact; exact Hn).
    rewrite !V in Sh by lia. exists s2, s3, s, s', F, p', xps', data, ops. repeat (split; [assumption|]). exact Sh.
Qed.
