(** Drawing over a document of GoPdf and saving it succeeds. *)
From Coq Require Import String List ZArith Lia Bool.
From Coq.Floats Require Import SpecFloat.
From Verif Require Import Float64 TextSpec PdfSyntax GoPdf GoPdfSpec GoPdfDrawSpec GoPdfDocSpec GoPdfTree GoPdfOpenSpec GoPdfResSpec GoPdfReadySpec.
From Verif Require Import Base BaseProofs Output OutputSpec Props PdfData PagesSpec PagesProofs Inject InjectSpec Crawl ContentSpec ImgSpec Parse ParsePages ParseFinal Png Crypto Api ApiSpec ApiProofs ApiIds SaveSpec SaveDoc SaveWhole SaveDrawSpec SaveDrawn GoPdfReady.
From Verif Require Import SaveGoesSpec FontFinal FontTotal SaveGoes SaveGoesFinal GoPdfReadyDoc GoPdfReadyApi GoPdfBlank.
Open Scope Z_scope.
Open Scope list_scope.

Theorem over_can : forall gw rnd cfg t F w f cs log s,
  document gw rnd cfg t F -> blen F < 10 ^ 10 -> real_infos t -> no_words F -> accepts (w_float w) -> compresses gw (w_inflate w) ->
  cfg_use cfg = false -> pages_of t <> [] -> Forall drawn_page (pages_of t) ->
  history w (S (S f)) (KOpen F :: cs) new_pdft = Ok (s, log) -> Forall adds cs ->
  Forall (fun f => exists d n, Ttf.parseTtf d = Ok (fd_ttf f) /\ complete_font d (fd_beyond f) n /\ within n (fd_map f)) (s_fonts s) ->
  maxID (objs (d_pdf (s_doc s))) + 6 * Z.of_nat (List.length (names_of s)) + Z.of_nat (List.length (s_imgs s)) < 2 ^ 63 ->
  exists srcs fi xi kids, can_save w (S (S f)) s 2 (map Leaf kids) fi xi srcs.
Proof.
  intros gw rnd cfg t F w f cs log s D Hs NI NW Ac Cp NU NP HP0 Hh Ha Fo Ro. pose proof (drawn_contents _ _ _ _ _ D HP0) as HP. pose proof (opened_sized _ _ _ _ _ _ _ _ _ _ D Hs NI NW Ac Hh) as HO.
  destruct (doc_ready _ _ _ _ _ (w_float w) (w_inflate w) D Hs NI NW Ac Cp NU NP HP HO) as (os & kids & srcs & fi & xi & Op & Un & Al & Nk & Nc & Mp & Ek & Pl & (rps & fps & Rf & Fi) & _ & Rd).
  pose proof Hh as Hh0. cbn [history] in Hh. apply bind_ok in Hh as ([s1 e1] & E1 & Hh). cbn [fst snd] in Hh. apply bind_ok in Hh as ([s2 l2] & E2 & Hh). cbn [fst snd] in Hh. assert (s = s2) by congruence. subst s2.
  cbn [call_of] in E1. unfold openFrom in E1. destruct (Op f) as (d & EP & Ed). change (s_doc new_pdft) with nodoc in E1. rewrite EP in E1.
  assert (Es1 : d_pdf (s_doc s1) = mkPdf 1 os). { unfold ok in E1. apply (f_equal (fun r => match r with Ok (a, _) => d_pdf (s_doc a) | _ => d_pdf (s_doc s1) end)) in E1. rewrite <- E1. exact Ed. }
  pose proof (history_extends _ _ _ _ _ _ Ha E2) as (Rt & extra & Ex). pose proof (history_grows _ _ _ _ _ _ (adds_open _ Ha) E2) as Gr. rewrite Es1 in Rt, Ex, Gr. cbn [root objs] in Rt, Ex.
  pose proof (grows_nodup _ _ Gr Un) as Un2. rewrite Ex in Un2.
  assert (Ep : d_pdf (s_doc s) = mkPdf 1 (os ++ extra)) by (destruct (d_pdf (s_doc s)) as [r0 o0]; cbn [root objs] in Rt, Ex; congruence).
  destruct (Rd extra Un2) as (Rdy & Src & Ap).
  assert (Nz : kids <> []). { intros ->. destruct (pages_of t); [congruence|]. cbn [combine] in Mp. inversion Mp. }
  exists srcs, fi, xi, kids. constructor.
  - rewrite Ep. exact Rdy.
  - rewrite Ep, leaf_leaves. exact Src.
  - rewrite Rt, leaf_leaves, leaf_ids. exact Ap.
  - pose proof (leaf_depth kids). lia.
  - intros L fps0 _ E. rewrite Fi in E. cbn [offered] in E. assert (fps0 = fps) by congruence. subst fps0. exact Rf.
  - destruct kids as [|L ks]; [congruence|]. exists L. split; [rewrite leaf_leaves; left; reflexivity|]. apply Pl. left. reflexivity.
  - intros L _. rewrite Fi. exact Logic.I.
  - exact Fo.
  - exact Ro.
Qed.

(** Drawn over, unprotected, it can be saved. *)
Theorem over_goes : forall gw rnd cfg t F w f cs log ch s,
  document gw rnd cfg t F -> blen F < 10 ^ 10 -> real_infos t -> no_words F -> accepts (w_float w) -> compresses gw (w_inflate w) ->
  cfg_use cfg = false -> pages_of t <> [] -> Forall drawn_page (pages_of t) ->
  history w (S (S f)) (KOpen F :: cs) new_pdft = Ok (s, log) -> Forall adds cs ->
  Forall (fun f => exists d n, Ttf.parseTtf d = Ok (fd_ttf f) /\ complete_font d (fd_beyond f) n /\ within n (fd_map f)) (s_fonts s) ->
  maxID (objs (d_pdf (s_doc s))) + 6 * Z.of_nat (List.length (names_of s)) + Z.of_nat (List.length (s_imgs s)) < 2 ^ 63 ->
  fair (ch_ord ch) -> s_prot s = None -> exists s' F', saveTo w (S (S f)) ch s = Ok (s', Ok F').
Proof.
  intros gw rnd cfg t F w f cs log ch s D Hs NI NW Ac Cp NU NP HP Hh Ha Fo Ro Fr Pr.
  destruct (over_can _ _ _ _ _ _ _ _ _ _ D Hs NI NW Ac Cp NU NP HP Hh Ha Fo Ro) as (srcs & fi & xi & kids & C). eapply save_succeeds_files; eauto.
Qed.
