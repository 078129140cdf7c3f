(** A document of GoPdf with a blank page opens in pdft, but is never saved. *)
From Coq Require Import String List ZArith Lia Bool FinFun.
From Coq.Floats Require Import SpecFloat.
From Verif Require Import Base BaseProofs Output OutputSpec OutputProofs Props PropsRefs InjectNames PdfSyntax PdfSyntaxProofs Float64 TextSpec PdfData PagesSpec InjectSpec ContentSpec SaveSpec Parse ParseFinal GoPdf GoPdfSpec GoPdfDrawSpec GoPdfDocSpec GoPdfFile GoPdfRun GoPdfPages GoPdfDoc GoPdfTree GoPdfText GoPdfOut GoPdfMain GoPdfOpenSpec GoPdfOpenInfo GoPdfOpen GoPdfOpenDict GoPdfOpenPages GoPdfOpenDoc GoPdfReadyDict GoPdfReadyStream GoPdfReadyTree GoPdfReadyDoc GoPdfReadySpec GoPdfResSpec GoPdfEmbed GoPdfReady.
From Verif Require Import PropsFlat PropsWrite Crawl Inject Crypto Api ApiSpec ApiProofs ApiIds SaveWhole SaveLock GoPdfReadyApi BlankSave.
Open Scope Z_scope.
Open Scope list_scope.

Lemma blank_none : forall w p, blank_page p -> fold_left (cstep w) (snd p) None = None.
Proof.
  intros w (o, l) H. unfold blank_page in H. cbn [snd] in *. induction H as [|[[g c] e] l N _ IH]; [reflexivity|]. cbn [fold_left].
  replace (cstep w None (g, c, e)) with (@None (list gcache)); [exact IH|]. unfold cstep, effect. unfold draws_something in N. cbn [fst snd] in N. destruct c; try reflexivity; exfalso; apply N; split; (reflexivity || exact Logic.I).
Qed.
Lemma page_only : forall c opt, exists v, only (map ent_prop (page_ents c opt)) (B"Contents") v /\ v = match c with Some i => refText (i + 1) | None => [] end.
Proof.
  intros c opt. eexists. split; [|reflexivity]. eexists (map ent_prop [mkEnt false (B"Type") []; mkEnt false (B"Page") []; mkEnt true (B"Parent") (refText 2); mkEnt true (B"Resources") (refText 3)]), _.
  split; [unfold page_ents; cbn [app map]; destruct c; cbn [content_ent ent_prop ekey eval app]; reflexivity|]. intros q Hq. rewrite in_app_iff in Hq. destruct Hq as [Hq|Hq].
  - cbn [map In] in Hq. destruct Hq as [<-|[<-|[<-|[<-|[]]]]]; discriminate.
  - destruct (opt_empty opt); cbn [map In] in Hq; [destruct Hq|]. destruct Hq as [<-|[]]. discriminate.
Qed.

Lemma empty_never : forall gw rnd cfg t F w f cs log ch s s' F',
  document gw rnd cfg t F -> blen F < 10 ^ 10 -> real_infos t -> no_words F -> Exists (fun p : f64 * f64 * trace => fold_left (cstep gw) (snd p) None = None) (pages_of t) ->
  history w (S (S f)) (KOpen F :: cs) new_pdft = Ok (s, log) -> Forall adds cs -> fair (ch_ord ch) ->
  maxID (objs (d_pdf (s_doc s))) + 6 * Z.of_nat (List.length (names_of s)) + Z.of_nat (List.length (s_imgs s)) < 2 ^ 63 \/ blen F' < 10 ^ 10 ->
  saveTo w (S (S f)) ch s <> Ok (s', Ok F').
Proof.
  intros gw rnd cfg t F w f cs log ch s s' F' D Hs NI NW Bl Hh Ha Fr Ro.
  destruct (doc_any _ _ _ _ _ D) as (g0 & g & bs & enc & l & fs & xs & Sg & R & EF & En & _ & B0 & B1 & B2 & Bx & Bf & FL & ND1 & ND2 & AP).
  subst F. apply real_of in NI. set (info := info_of t) in *. clearbody info.
  assert (He : match enc with Some e => 0 <= e | None => True end) by (destruct enc as [e|]; [apply En; reflexivity|exact Logic.I]).
  destruct (no_words_in bs enc info Hs) as (O1 & O2 & O3); [intros e E; apply En; exact E|exact NW|].
  assert (Hl : Z.of_nat (List.length bs) < 2 ^ 62) by (pose proof (file_len bs enc info); lia).
  assert (Hx : Z.of_nat (List.length xs) < 2 ^ 62) by (pose proof (procset_len fs xs 0); pose proof (body_len bs enc info _ _ B2); lia).
  assert (HP : Forall2 (fun x opt => 3 <= fst x /\ nth_error bs (Z.to_nat (fst x)) = Some (page_build (flat_map g_ref (one (snd x))) (B"3 0 R") opt)) l (map (fun p => norm (fst p)) (pages_of t))).
  { clear -FL. induction FL as [|x p l ps (P1 & P2 & _) _ IH]; cbn [map]; constructor; auto. }
  assert (HB : Forall2 (page_body bs) (map fst l) (map (fun p => norm (fst p)) (pages_of t))).
  { clear -HP. induction HP as [|x o l ops (P1 & P3) _ IH]; cbn [map]; constructor; [|exact IH]. split; [lia|]. exists (snd x). exact P3. }
  assert (Nl : l <> []) by (intros El; rewrite El in FL; destruct (pages_of t); [inversion Bl|inversion FL]).
  destruct (parse_doc (w_float w) f bs enc info _ _ _ _ _ Hs He NI O1 O2 O3 B0 B1 HB) as (_ & xr & EP).
  pose proof Hh as Hh0. cbn [history] in Hh. apply bind_ok in Hh as ([s1 e1] & E1 & Hh). cbn [fst snd] in Hh. apply bind_ok in Hh as ([s2 l2] & E2 & Hh). cbn [fst snd] in Hh. assert (s = s2) by congruence. subst s2.
  cbn [call_of] in E1. unfold openFrom in E1. change (s_doc new_pdft) with nodoc in E1. rewrite EP in E1.
  assert (Es1 : d_pdf (s_doc s1) = mkPdf 1 (opened bs)).
  { destruct (page_sizes _ _ _ _ _) as (sz, [u|er| |]); try discriminate; unfold ok, fails in E1; apply (f_equal (fun r => match r with Ok (a, _) => d_pdf (s_doc a) | _ => d_pdf (s_doc s1) end)) in E1; rewrite <- E1; reflexivity. }
  pose proof (history_extends _ _ _ _ _ _ Ha E2) as (Rt & extra & Ex). pose proof (history_grows _ _ _ _ _ _ (adds_open _ Ha) E2) as Gr. rewrite Es1 in Rt, Ex, Gr. cbn [root objs] in Rt, Ex.
  assert (Un : NoDup (map oid (opened bs))) by (rewrite opened_ids; apply FinFun.Injective_map_NoDup; [intros x y; lia|apply seq_NoDup]).
  pose proof (grows_nodup _ _ Gr Un) as Un2. rewrite Ex in Un2.
  assert (Ep : d_pdf (s_doc s) = mkPdf 1 (opened bs ++ extra)) by (destruct (d_pdf (s_doc s)) as [r0 o0]; cbn [root objs] in Rt, Ex; congruence).
  pose proof (r_ready bs _ _ _ _ fs xs Hl B0 B1 B2 Hx Bx HP ND1 Nl extra Un2) as RD.
  assert (K : forall x p, page_has gw g bs x p -> (snd x = None -> contents_bad (opened bs ++ extra) (fst x + 1)) /\ (snd x <> None -> contents_at (opened bs ++ extra) (fst x + 1))).
  { intros (i, c) p (P1 & P2 & P3). cbn [fst snd] in *. pose proof (r_dict bs extra Un2 _ _ _ P2 (page_props c (norm (fst p)))) as RDi. rewrite Z2Nat.id in RDi by lia. destruct (page_only c (norm (fst p))) as (v & Ov & Ev).
    replace (1 + i) with (i + 1) in RDi by lia. split; intros Hc.
    - subst c. exists (map ent_prop (page_ents None (norm (fst p)))), v, EObjNotFound. subst v. auto.
    - destruct c as [c|]; [|congruence]. destruct P3 as (P3 & _ & _ & b & _ & _ & _ & Nb & _). assert (Lc : (Z.to_nat c < List.length bs)%nat) by (apply nth_error_Some; congruence).
      exists (map ent_prop (page_ents (Some c) (norm (fst p)))), v, (c + 1). subst v. split; [exact RDi|]. split; [exact Ov|]. split; [apply readObjID_ref; unfold in_int, int64_min, int64_max; lia|].
      rewrite map_app. apply in_or_app. left. rewrite opened_ids. apply in_map_iff. exists (S (Z.to_nat c)). split; [lia|apply in_seq; lia]. }
  eapply (never_saved w _ ch s s' F' 2 (map Leaf (map (fun i => i + 1) (map fst l)))).
  - exact Fr.
  - eapply reached_names; exact Hh0.
  - rewrite Ep. exact RD.
  - pose proof (leaf_depth (map (fun i => i + 1) (map fst l))). lia.
  - exact Ro.
  - rewrite Ep, leaf_leaves. cbn [objs]. clear -FL K. induction FL as [|x p l ps H _ IH]; constructor; [|exact IH]. destruct (K x p H) as (K1 & K2). destruct (snd x); [left; apply K2; discriminate|right; apply K1; reflexivity].
  - rewrite Ep, leaf_leaves. cbn [objs]. clear -FL K Bl. induction FL as [|x p l ps H _ IH]; [inversion Bl|]. cbn [map]. inversion Bl as [? ? B1|? ? B1]; subst; [|right; apply IH; exact B1]. left.
    destruct (K x p H) as (K1 & K2). apply K1. destruct H as (_ & _ & H). destruct (snd x) as [c|]; [|reflexivity]. destruct H as (_ & cs & _ & _ & _ & H & _). cbv beta in B1. congruence.
Qed.

Theorem blank_never : forall gw rnd cfg t F w f cs log ch s s' F',
  document gw rnd cfg t F -> blen F < 10 ^ 10 -> real_infos t -> no_words F -> Exists blank_page (pages_of t) ->
  history w (S (S f)) (KOpen F :: cs) new_pdft = Ok (s, log) -> Forall adds cs -> fair (ch_ord ch) ->
  maxID (objs (d_pdf (s_doc s))) + 6 * Z.of_nat (List.length (names_of s)) + Z.of_nat (List.length (s_imgs s)) < 2 ^ 63 ->
  saveTo w (S (S f)) ch s <> Ok (s', Ok F').
Proof.
  intros gw rnd cfg t F w f cs log ch s s' F' D Hs NI NW Bl Hh Ha Fr Ro. eapply empty_never; eauto. apply Exists_exists in Bl. destruct Bl as (p & Hp & B1). apply Exists_exists. exists p. split; [exact Hp|]. apply blank_none. exact B1.
Qed.

(** What was opened has pages with a size of their own. *)
Lemma opened_sized : forall gw rnd cfg t F w f cs s r, document gw rnd cfg t F -> blen F < 10 ^ 10 -> real_infos t -> no_words F -> accepts (w_float w) ->
  history w (S (S f)) (KOpen F :: cs) new_pdft = Ok (s, r) -> forallb own_size (pages_of t) = true.
Proof.
  intros gw rnd cfg t F w f cs s r D Hs NI NW Ac Hh. destruct (opens_document gw rnd cfg t F (w_float w) f D Hs NI NW Ac) as (kids & d & EP & _). cbn [history] in Hh. apply bind_ok in Hh as ([s1 e1] & E1 & _).
  cbn [call_of] in E1. unfold openFrom in E1. change (s_doc new_pdft) with nodoc in E1. rewrite EP in E1. destruct (forallb own_size (pages_of t)); [reflexivity|discriminate].
Qed.
(** What was saved has no page without contents. *)
Lemma saved_contents : forall gw rnd cfg t F w f cs log ch s s' F', document gw rnd cfg t F -> blen F < 10 ^ 10 -> real_infos t -> no_words F ->
  history w (S (S f)) (KOpen F :: cs) new_pdft = Ok (s, log) -> Forall adds cs -> fair (ch_ord ch) -> saveTo w (S (S f)) ch s = Ok (s', Ok F') -> blen F' < 10 ^ 10 ->
  Forall (fun p => finite (fst (fst p)) /\ finite (snd (fst p))) (pages_of t) -> Forall (has_contents gw) (pages_of t).
Proof.
  intros gw rnd cfg t F w f cs log ch s s' F' D Hs NI NW Hh Ha Fr Sv Sm Fi. rewrite Forall_forall in *. intros p Hp. destruct (Fi p Hp) as (F1 & F2). split; [exact F1|]. split; [exact F2|]. intros E.
  eapply empty_never; try eassumption; [apply Exists_exists; exists p; auto|apply Forall_forall; exact Ha|right; exact Sm].
Qed.
