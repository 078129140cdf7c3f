(** pdft draws over documents of the writer GoPdf (C86). *)
From Coq Require Import String List ZArith Lia Bool.
From Coq.Floats Require Import SpecFloat.
From Verif Require Import Float64 TextSpec PdfSyntax GoPdf GoPdfSpec GoPdfDrawSpec GoPdfDocSpec GoPdfTree GoPdfOpenSpec GoPdfResSpec GoPdfReadySpec.
From Verif Require Import Base BaseProofs Output OutputSpec Props PdfData PagesSpec PagesProofs Inject InjectSpec Crawl ContentSpec ImgSpec Parse ParsePages ParseFinal Png Crypto Api ApiSpec ApiProofs ApiIds SaveSpec SaveDoc SaveWhole SaveDrawSpec SaveDrawn GoPdfReady GoPdfReadyDoc GoPdfReadyApi GoPdfBlank GoPdfNoPages.
Open Scope Z_scope.
Open Scope list_scope.

Theorem drawn_over : forall gw rnd cfg t F w f cs log ch s s' F' pw,
  document gw rnd cfg t F -> blen F < 10 ^ 10 -> real_infos t -> no_words F -> accepts (w_float w) -> compresses gw (w_inflate w) ->
  cfg_use cfg = false -> Forall (fun p => finite (fst (fst p)) /\ finite (snd (fst p))) (pages_of t) ->
  history w (S (S f)) (KOpen F :: cs) new_pdft = Ok (s, log) -> Forall adds cs ->
  saveTo w (S (S f)) ch s = Ok (s', Ok F') -> fair (ch_ord ch) -> protected_by s pw -> blen F' < 10 ^ 10 ->
  exists os kids srcs fi xi p' ins, all_objects F os /\ file_holds F' p' pw /\ saved_document w s s' 2 (map Leaf kids) fi xi srcs p' ins /\
    over_pages gw (w_inflate w) cfg F os (pages_of t) kids p' ins /\ over_names F kids p' /\ over_rest gw (w_inflate w) cfg F os (pages_of t) kids p' ins.
Proof.
  intros gw rnd cfg t F w f cs log ch s s' F' pw D Hs NI NW Ac Cp NU Fi Hh Ha Sv Fr Pr Sm.
  assert (NP : pages_of t <> []) by (intros E; exact (no_pages_never _ _ _ _ _ _ _ _ _ _ _ _ _ D Hs NI NW E Hh Ha Fr Sv)).
  pose proof (saved_contents _ _ _ _ _ _ _ _ _ _ _ _ _ D Hs NI NW Hh Ha Fr Sv Sm Fi) as HP. pose proof (opened_sized _ _ _ _ _ _ _ _ _ _ D Hs NI NW Ac Hh) as HO. clear Fi.
  destruct (doc_ready _ _ _ _ _ (w_float w) (w_inflate w) D Hs NI NW Ac Cp NU NP HP HO) as (os & kids & srcs & fi & xi & Op & Un & Al & Nk & Nc & Mp & Ek & Pl & _ & (fps & xps & Nf & Kf & Kx & Pg) & Rd).
  pose proof Hh as Hh0. cbn [history] in Hh. apply bind_ok in Hh as ([s1 e1] & E1 & Hh). cbn [fst snd] in Hh. apply bind_ok in Hh as ([s2 l2] & E2 & Hh). cbn [fst snd] in Hh. assert (s = s2) by congruence. subst s2.
  cbn [call_of] in E1. unfold openFrom in E1. destruct (Op f) as (d & EP & Ed). change (s_doc new_pdft) with nodoc in E1. rewrite EP in E1.
  assert (Es1 : d_pdf (s_doc s1) = mkPdf 1 os). { unfold ok in E1. apply (f_equal (fun r => match r with Ok (a, _) => d_pdf (s_doc a) | _ => d_pdf (s_doc s1) end)) in E1. rewrite <- E1. exact Ed. }
  pose proof (history_extends _ _ _ _ _ _ Ha E2) as (Rt & extra & Ex). pose proof (history_grows _ _ _ _ _ _ (adds_open _ Ha) E2) as Gr. rewrite Es1 in Rt, Ex, Gr. cbn [root objs] in Rt, Ex.
  pose proof (grows_nodup _ _ Gr Un) as Un2. rewrite Ex in Un2.
  assert (Ep : d_pdf (s_doc s) = mkPdf 1 (os ++ extra)) by (destruct (d_pdf (s_doc s)) as [r0 o0]; cbn [root objs] in Rt, Ex; congruence).
  destruct (Rd extra Un2) as (Rdy & Src & Ap).
  assert (Nz : kids <> []). { intros ->. destruct (pages_of t); [congruence|]. cbn [combine] in Mp. inversion Mp. }
  destruct (saved_either w (S (S f)) ch (KOpen F :: cs) log s s' F' 2 (map Leaf kids) fi xi srcs pw Hh0 Sv Fr Pr) as (p' & ins & Fh & SD).
  { rewrite Ep. exact Rdy. } { rewrite Ep, leaf_leaves. exact Src. } { rewrite Rt, leaf_leaves, leaf_ids. exact Ap. } { pose proof (leaf_depth kids). lia. } { rewrite Rt. lia. } { exact Sm. }
  assert (At : forall i k p, nth_error kids i = Some k -> nth_error (pages_of t) i = Some p -> exists c body, nth_error srcs i = Some (Some (c, body)) /\ made_page gw (w_inflate w) cfg F p k c body).
  { intros i k p Hk Hp. assert (Si : exists x, nth_error srcs i = Some x). { destruct (nth_error srcs i) eqn:E; [eauto|]. apply nth_error_None in E. assert ((i < List.length kids)%nat) by (apply nth_error_Some; congruence). lia. }
    destruct Si as (x & Hx). destruct (forall2_nth _ _ _ _ _ _ _ Mp (nth_combine _ _ _ _ _ _ _ Hk Hx)) as (p0 & Hp0 & c & body & E & M). assert (p0 = p) by congruence. subst p0. cbn [fst snd] in *. exists c, body. split; [congruence|exact M]. }
  assert (Fm : forall o, In o os -> oid o <> 3 -> (forall k x, ~ writes srcs ins k (oid o) x) -> version (objs p') (oid o) o).
  { intros o Ho H3 Hw. apply (sd_frame _ _ _ _ _ _ _ _ _ _ SD).
    - rewrite Ep. cbn [objs]. apply get_version. apply getObj_one; [exact Un2|]. apply in_or_app. left. exact Ho.
    - rewrite leaf_leaves. intros (L & HL & O). destruct (Pl L HL) as (_ & _ & _ & E). rewrite E in O. destruct O as [O|[]]. congruence.
    - exact Hw.
    - intros IN. exfalso. destruct kids as [|L ks]; [congruence|]. destruct (Pl L (or_introl eq_refl)) as (P1 & P2 & _). specialize (IN L). rewrite leaf_leaves in IN. specialize (IN (or_introl eq_refl)).
      destruct (xi L) as [|? ?|? ? []]; cbn [offered] in P2; first [congruence|exact IN]. }
  exists os, kids, srcs, fi, xi, p', ins. split; [exact Al|]. split; [exact Fh|]. split; [exact SD|]. split; [|split].
  - split; [rewrite (sd_root _ _ _ _ _ _ _ _ _ _ SD); exact Rt|]. split; [exact (sd_tree _ _ _ _ _ _ _ _ _ _ SD)|]. split; [exact Nk|].
    split. { rewrite <- (GoPdfRun.forall2_len _ _ _ _ _ Mp), combine_length. lia. }
    intros i k p Hk Hp. destruct (At i k p Hk Hp) as (c & body & Si & M). exists c, body. split; [exact M|].
    assert (Zi : Z.to_nat (1 + Z.of_nat i - 1) = i) by lia. split.
    + intros Hi. apply (sd_contents _ _ _ _ _ _ _ _ _ _ SD).
      * rewrite leaf_leaves, Zi. exact Hk.
      * split; [lia|]. rewrite Zi. split; [exact Si|exact Hi].
      * intros k' t' Hk' (K1 & Sr' & _). assert (i = Z.to_nat (k' - 1)) by (eapply content_apart; [exact Nc|exact Si|exact Sr']). lia.
    + intros Hi. assert (Hc : exists o, In o os /\ oid o = c).
      { destruct (forall2_nth _ _ _ _ _ _ _ Src Hk) as (x & Hx & Sx). assert (x = Some (c, body)) by congruence. subst x. destruct Al as (base & Tb & AO).
        destruct M as ((dd & PG) & (d0 & raw & mid & SI & _) & _). destruct SI as (tx & OT & _). destruct OT as (N & b2 & off & dg & T2 & Rg & _). destruct (GoPdfFile.table_unique _ _ _ _ _ Tb T2) as (<- & <-).
        destruct (nth_error os (Z.to_nat (c - 1))) as [o|] eqn:Eo; [|apply nth_error_None in Eo; lia]. exists o. split; [apply (nth_error_In _ _ Eo)|]. destruct (AO _ _ Eo) as (E & _). lia. }
      destruct Hc as (o & Ho & Ec). exists o. split; [exact Ho|]. split; [exact Ec|]. rewrite <- Ec. apply Fm; [exact Ho| |].
      * intros X. destruct (Ap c (nth_content _ _ _ _ Si)) as (_ & Y). apply Y. destruct kids as [|L ks]; [congruence|]. exists L. split; [left; reflexivity|]. destruct (Pl L (or_introl eq_refl)) as (_ & _ & _ & E). rewrite E. left. congruence.
      * intros k' x (K1 & Sr' & In'). rewrite Ec in Sr'. assert (i = Z.to_nat (k' - 1)) by (eapply content_apart; [exact Nc|exact Si|exact Sr']). apply Hi. replace (1 + Z.of_nat i) with k' by lia. exact In'.
  - intros L HL. destruct (Pg extra L Un2 HL) as (P1 & P2). assert (HL2 : In L (flat_map leaves (map Leaf kids))) by (rewrite leaf_leaves; exact HL). split.
    + destruct (sd_fonts _ _ _ _ _ _ _ _ _ _ SD L fps HL2) as (fps' & Q1 & Q2 & _); [rewrite Ep; exact P1|]. exists fps'. split; [exact Q1|]. intros name n Hn. apply (Q2 Nf), Kf. exact Hn.
    + destruct (sd_images _ _ _ _ _ _ _ _ _ _ SD L HL2) as (xps' & Q1 & Q2 & _). { destruct (Pl L HL) as (A1 & A2 & _). split; [exact A1|left; exact A2]. }
      exists xps'. split; [exact Q1|]. intros name n Hn. apply (Q2 xps); [rewrite Ep; exact P2|apply Kx; exact Hn].
  - intros o Ho H3 Hc. apply Fm; [exact Ho|exact H3|]. intros k' x (K1 & Sr' & In').
    assert (Hi : exists k, nth_error kids (Z.to_nat (k' - 1)) = Some k). { destruct (nth_error kids (Z.to_nat (k' - 1))) eqn:E; [eauto|]. apply nth_error_None in E. assert ((Z.to_nat (k' - 1) < List.length srcs)%nat) by (apply nth_error_Some; congruence). lia. }
    destruct Hi as (k & Hk).
    assert (Hp : exists p, nth_error (pages_of t) (Z.to_nat (k' - 1)) = Some p). { destruct (nth_error (pages_of t) (Z.to_nat (k' - 1))) eqn:E; [eauto|]. apply nth_error_None in E. assert ((Z.to_nat (k' - 1) < List.length srcs)%nat) by (apply nth_error_Some; congruence). rewrite <- (GoPdfRun.forall2_len _ _ _ _ _ Mp), combine_length in E. lia. }
    destruct Hp as (p & Hp). destruct (At _ _ _ Hk Hp) as (c & body & Si & M). apply (Hc (Z.to_nat (k' - 1)) k p c body Hk Hp M); [|congruence].
    replace (1 + Z.of_nat (Z.to_nat (k' - 1))) with k' by lia. exact In'.
Qed.
