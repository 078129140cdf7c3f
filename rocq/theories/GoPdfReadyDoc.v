(** The objects of a document of the writer GoPdf. *)
From Coq Require Import String List ZArith Lia Bool FinFun.
From Coq.Floats Require Import SpecFloat.
From Verif Require Import Base BaseProofs Output OutputSpec OutputProofs PdfSyntax PdfSyntaxProofs Float64 TextSpec PdfData GoPdf GoPdfSpec GoPdfDocSpec GoPdfFile GoPdfRun GoPdfPages GoPdfDoc GoPdfTree GoPdfMain GoPdfView GoPdfChain GoPdfOpenSpec GoPdfOpenInfo GoPdfOpen GoPdfOpenDict GoPdfOpenPages GoPdfOpenDoc.
Open Scope Z_scope.
Open Scope list_scope.

(** A page and its content stream, if it has one: where they are, and what they
    are. *)
Definition page_has (w : gworld) (g : gp) (bs : list bytes) (x : Z * option Z) (p : f64 * f64 * trace) : Prop :=
  3 <= fst x /\ nth_error bs (Z.to_nat (fst x)) = Some (page_build (flat_map g_ref (one (snd x))) (B"3 0 R") (norm (fst p))) /\
  match snd x with
  | None => fold_left (cstep w) (snd p) None = None
  | Some c => 3 <= c /\ exists cs s b st, fold_left (cstep w) (snd p) None = Some cs /\ caches_stream (g_fonts g) cs = Ok s /\
      nth_error bs (Z.to_nat c) = Some b /\ content_build w (g_level g) (g_prot g) (1 + c) [] s = Ok (b, st)
  end.
Definition page_at (w : gworld) (g : gp) (bs : list bytes) (x : Z * Z) (p : f64 * f64 * trace) : Prop :=
  3 <= fst x /\ 3 <= snd x /\ nth_error bs (Z.to_nat (fst x)) = Some (page_build (g_ref (snd x)) (B"3 0 R") (norm (fst p))) /\
  exists cs s b st, fold_left (cstep w) (snd p) None = Some cs /\ caches_stream (g_fonts g) cs = Ok s /\
    nth_error bs (Z.to_nat (snd x)) = Some b /\ content_build w (g_level g) None (1 + snd x) [] s = Ok (b, st).

(** No content stream belongs to two pages. *)
Lemma contents_nodup : forall os, NoDup (flat_map (fun q => map fst (snd q)) (scan os)).
Proof.
  apply rev_ind_g; [constructor|]. intros os x IH.
  destruct (o_kind x) eqn:E;
    try (rewrite scan_app by (unfold sig; cbn [forallb]; rewrite E; reflexivity); exact IH).
  - rewrite (scan_page _ _ _ _ _ E), flat_map_app. cbn [flat_map map snd]. rewrite !app_nil_r. exact IH.
  - rewrite (scan_content _ _ _ _ E). destruct (last_cases _ (scan os)) as [->|(a & q & Ea)]; [constructor|].
    assert (P : forall i, In i (flat_map (fun q => map fst (snd q)) (scan os)) -> i < Z.of_nat (List.length os)).
    { intros i Hi. apply in_flat_map in Hi. destruct Hi as (q' & Hq & Hi). apply in_map_iff in Hi. destruct Hi as (y & <- & Hy). pose proof (scan_placed os) as P. rewrite Forall_forall in P.
      destruct (P q' Hq) as (_ & Fc). rewrite Forall_forall in Fc. destruct (Fc y Hy) as (o & s & P0 & N & _). assert (Z.to_nat (fst y) < List.length os)%nat by (apply nth_error_Some; congruence). lia. }
    rewrite Ea in *. rewrite on_last_snoc. rewrite flat_map_app in *. cbn [flat_map snd] in *. rewrite app_nil_r in *. rewrite map_app. cbn [map fst]. rewrite app_assoc.
    apply NoDup_Add with (a := Z.of_nat (List.length os)) (l := flat_map (fun q => map fst (snd q)) a ++ map fst (snd q)).
    + match goal with |- Add _ ?u _ => rewrite <- (app_nil_r u) at 1 end. apply Add_app.
    + split; [exact IH|]. intros H. apply P in H. lia.
Qed.

Lemma doc_any : forall w rnd cfg t F, document w rnd cfg t F ->
  exists g0 g bs enc l fs xs, g_start rnd cfg gp0 = Ok g0 /\ runs w g0 t g /\ F = file bs enc (info_of t) /\ (forall e, enc = Some e -> 0 <= e) /\ (cfg_use cfg = false -> enc = None /\ g_prot g = None) /\
  nth_error bs 0 = Some catalog_build /\ nth_error bs 1 = Some (pages_build (cfg_w cfg) (cfg_h cfg) (Z.of_nat (List.length l)) (flat_map g_ref (map fst l))) /\
  nth_error bs 2 = Some (procset_build fs xs 0) /\ Forall (fun x => 0 <= x < Z.of_nat (List.length bs)) xs /\
  Forall (fun r => 0 <= r_count r < Z.of_nat (List.length fs) /\ 0 <= r_obj r < Z.of_nat (List.length bs)) fs /\
  Forall2 (page_has w g bs) l (pages_of t) /\ NoDup (map fst l) /\ NoDup (flat_map (fun x => one (snd x)) l) /\ (forall a c, In a (map fst l) -> In c (flat_map (fun x => one (snd x)) l) -> a <> c).
Proof.
  intros w rnd cfg t F D. destruct (doc_facts _ _ _ _ _ D) as (g0 & g & bs & info & S & R & V & Ei & EF & L & Ep & Es & K).
  destruct (iv_objs _ _ _ V) as (fs & xs & rest & Eo & Ri). pose proof (iv_scan _ _ _ V) as Sc. pose proof (iv_fresh _ _ _ V) as Fr. destruct (iv_cfg _ _ _ V) as (Ec & _).
  destruct (kept_run _ _ _ _ _ _ S R) as (Eq & Ki). rewrite Ki in Ei. subst info.
  assert (WE : forall j o, nth_error (g_objs g) j = Some o -> nth_error (with_enc g) j = Some o) by (intros j o Ej; unfold with_enc; rewrite nth_error_app1; [exact Ej|apply nth_error_Some; congruence]).
  assert (WL : (List.length (g_objs g) <= List.length (with_enc g))%nat) by (unfold with_enc; rewrite app_length; lia).
  pose proof (scan_placed (g_objs g)) as P. pose proof (scan_nodup (g_objs g)) as ND.
  assert (RA : forall q, In q (scan (g_objs g)) -> refs_at (scan (g_objs g)) (fst (fst q)) = flat_map (fun c => g_ref (fst c)) (snd q)).
  { intros [[i opt] cs] H. cbn [fst snd]. eapply refs_at_in; eauto. }
  assert (T3 : forall j o, nth_error (g_objs g) j = Some o -> sig o = true -> (3 <= j)%nat).
  { intros j o Ej So. rewrite Eo in Ej. destruct j as [|[|[|j]]]; [| | |lia]; cbn [app nth_error] in Ej; injection Ej as <-; discriminate So. }
  set (page := fun j : Z => exists o c r opt, nth_error (g_objs g) (Z.to_nat j) = Some o /\ o_kind o = KPage c r opt).
  set (cont := fun j : Z => exists o s cs, nth_error (g_objs g) (Z.to_nat j) = Some o /\ o_kind o = KContent s cs).
  assert (GEN : forall sc pl, Forall2 here sc (map (made w) pl) -> (forall q, In q sc -> In q (scan (g_objs g))) -> (forall p, In p pl -> In p (pages_of t)) ->
    exists l, map fst l = map (fun q => fst (fst q)) sc /\ flat_map (fun x => one (snd x)) l = flat_map (fun q => map fst (snd q)) sc /\ Forall2 (page_has w g bs) l pl /\ Forall (fun x => page (fst x) /\ forall c, snd x = Some c -> cont c) l).
  { induction sc as [|q sc IH]; intros pl H Hq Hpl; destruct pl as [|p pl]; inversion H as [|? ? ? ? H1 H2]; subst; [exists []; split; [reflexivity|split; [reflexivity|split; constructor]]|].
    destruct (IH pl H2) as (l & El & El2 & Fl & Al); [intros; apply Hq; right; assumption|intros; apply Hpl; right; assumption|]. clear IH H2.
    destruct H1 as (H1 & H3). unfold made in H3, H1. cbn [fst snd] in H1, H3. specialize (RA q (Hq q (or_introl eq_refl))).
    rewrite Forall_forall in P. destruct (P q (Hq q (or_introl eq_refl))) as ((o & c & r & P1 & P2 & P3) & P4).
    rewrite Forall_forall in Fr. destruct (Fr o (nth_error_In _ _ P2)) as (_ & Fo). rewrite P3 in Fo. destruct Fo as (-> & ->).
    assert (A1 : (3 <= Z.to_nat (fst (fst q)))%nat) by (eapply T3; [exact P2|unfold sig; rewrite P3; reflexivity]).
    destruct (K _ _ (WE _ _ P2)) as (lk & b & kd & lk' & B1 & N1 & _). rewrite linked_at, P3, Z2Nat.id in B1 by exact P1. cbn [build1 app] in B1. injection B1 as <- _ _.
    destruct (fold_left (cstep w) (snd p) None) as [cs|] eqn:Ecs.
    2:{ rewrite H3 in RA. cbn [flat_map] in RA. exists ((fst (fst q), None) :: l). cbn [map fst snd flat_map one app]. rewrite El, El2, H3. split; [reflexivity|]. split; [reflexivity|]. split; constructor; [|exact Fl| |exact Al].
      - unfold page_has. cbn [fst snd one flat_map]. split; [lia|]. rewrite RA, H1 in N1. split; [exact N1|exact Ecs].
      - cbn [fst snd]. split; [exists o, [], (B"3 0 R"), (snd (fst q)); auto|discriminate]. }
    destruct H3 as (i & H3). rewrite H3 in RA. cbn [flat_map fst] in RA. rewrite app_nil_r in RA. rewrite H3 in P4.
    inversion P4 as [|? ? (o2 & s2 & Q1 & Q2 & Q3) _]; subst. cbn [fst snd] in Q1, Q2, Q3.
    destruct (Fr o2 (nth_error_In _ _ Q2)) as (_ & Fo2). rewrite Q3 in Fo2. subst s2.
    assert (A2 : (3 <= Z.to_nat i)%nat) by (eapply T3; [exact Q2|unfold sig; rewrite Q3; reflexivity]).
    exists ((fst (fst q), Some i) :: l). cbn [map fst snd flat_map one app]. rewrite El, El2, H3. split; [reflexivity|]. split; [reflexivity|]. split; constructor; [|exact Fl| |exact Al].
    2:{ cbn [fst snd]. split; [exists o, [], (B"3 0 R"), (snd (fst q)); auto|]. intros c Ec0. assert (c = i) by congruence. subst c. exists o2, [], cs. auto. }
    unfold page_has. cbn [fst snd one flat_map]. rewrite app_nil_r. split; [lia|].
    rewrite RA, H1 in N1. split; [exact N1|]. split; [lia|].
    destruct (K _ _ (WE _ _ Q2)) as (lk2 & b2 & kd2 & lk2' & B2 & N2 & _). rewrite linked_at, Q3, Z2Nat.id in B2 by exact Q1. cbn [build1] in B2.
    destruct (caches_stream (g_fonts g) cs) as [s| | |] eqn:Es2; cbn [bind] in B2; try discriminate.
    destruct (content_build w (g_level g) (g_prot g) (1 + i) [] s) as [(b0, st)| | |] eqn:Eb; cbn [bind] in B2; try discriminate.
    assert (b0 = b2) by congruence. subst b0. exists cs, s, b2, st. auto. }
  destruct (GEN _ _ Sc) as (l & El & El2 & Fl & Al); [auto|auto|]. exists g0, g, bs, (if cfg_use cfg then Some (enc_of (with_enc g) 0 (g_enc g)) else None), l, fs, xs. split; [exact S|]. split; [exact R|]. split; [exact EF|].
  split.
  { intros e Ee. destruct (cfg_use cfg) eqn:Eu; [|discriminate Ee]. destruct (Ep eq_refl) as (p & Hp). destruct (enc_id _ _ _ _ V Eu Hp) as (_ & E). rewrite E in Ee. assert (e = 1 + Z.of_nat (List.length (g_objs g))) by congruence. lia. }
  split; [intros NU; rewrite NU, Eq, (start_unprot _ _ _ S NU); auto|].
  split; [|split; [|split; [|split; [|split; [|split; [exact Fl|split; [|split]]]]]]].
  - destruct (K 0%nat (new_obj KCatalog)) as (lk & b & kd & lk' & B1 & N1 & _). { apply WE. rewrite Eo. reflexivity. }
    cbn [linked o_kind new_obj build1] in B1. injection B1 as <- _ _. exact N1.
  - destruct (K 1%nat (new_obj (KPages 0 []))) as (lk & b & kd & lk' & B1 & N1 & _). { apply WE. rewrite Eo. reflexivity. }
    rewrite linked_at in B1. cbn [o_kind new_obj] in B1. change (Z.of_nat 1 =? 1) with true in B1. cbv iota in B1. cbn [build1] in B1. injection B1 as <- _ _.
    rewrite Ec in N1. replace (kid_refs (scan (g_objs g))) with (flat_map g_ref (map (fun q => fst (fst q)) (scan (g_objs g)))) in N1.
    2:{ unfold kid_refs. rewrite !flat_map_concat_map, map_map. reflexivity. }
    rewrite <- (map_length fst l), El, map_length. exact N1.
  - destruct (K 2%nat (new_obj (KProcSet fs xs))) as (lk & b & kd & lk' & B1 & N1 & Z0). { apply WE. rewrite Eo. reflexivity. }
    rewrite (Z0 eq_refl) in B1. rewrite linked_at in B1. cbn [o_kind new_obj build1] in B1. injection B1 as <- _ _. exact N1.
  - destruct (ld_rels _ _ _ (laid_run _ _ _ _ _ _ S R)) as (rs & xs' & E2 & _ & F2). unfold GoPdfView.V in E2. rewrite Eo in E2. cbn [app map nth_error new_obj o_kind view] in E2.
    assert (xs' = xs) by congruence. subst xs'. clear E2. clear - F2 L WL. induction F2 as [|x pc xl pl (inf & inf' & rgb & _ & X0 & X1 & _) _ IH]; constructor; [|exact IH].
    assert (X2 : (Z.to_nat x < List.length (GoPdfView.V g))%nat) by (apply nth_error_Some; congruence). rewrite V_len in X2. lia.
  - pose proof (laid_run _ _ _ _ _ _ S R) as LD. destruct (ld_rels _ _ _ LD) as (rs & xs' & E2 & RL & _). unfold GoPdfView.V in E2. rewrite Eo in E2. cbn [app map nth_error new_obj o_kind view] in E2.
    assert (rs = fs) by congruence. subst rs. clear E2. apply Forall_forall. intros r Hr. apply In_nth_error in Hr. destruct Hr as (j & Hj).
    assert (Lj : (j < List.length fs)%nat) by (apply nth_error_Some; congruence).
    destruct (rl_each _ _ _ RL j r Hj) as (C & n & f & N & _ & O & _). destruct (ld_fonts _ _ _ LD n f N) as (A1 & _ & A3).
    assert (X : nth_error (GoPdfView.V g) (Z.to_nat (gf_unicode f) + 4) <> None). { destruct (nth_error (five n (gf_unicode f) (g_prot g)) 4) as [k|] eqn:E5; [|discriminate E5]. rewrite (A3 _ _ E5). discriminate. }
    apply nth_error_Some in X. rewrite V_len in X. rewrite C, O. lia.
  - rewrite El. exact ND.
  - rewrite El2. apply contents_nodup.
  - intros a c Ha Hc E. subst c. apply in_map_iff in Ha. destruct Ha as (x & <- & Hx). apply in_flat_map in Hc. destruct Hc as (y & Hy & Ey). rewrite Forall_forall in Al.
    assert (Sy : snd y = Some (fst x)) by (destruct (snd y) as [c|]; [destruct Ey as [->|[]]; reflexivity|destruct Ey]).
    destruct (Al x Hx) as ((o & c & r & opt & E1 & E2) & _). destruct (Al y Hy) as (_ & Cy). destruct (Cy _ Sy) as (o' & s & cs & E3 & E4). assert (o = o') by congruence. subst o'. rewrite E2 in E4. discriminate E4.
Qed.

(** A page of finite size with a content stream. *)
Definition has_contents (w : gworld) (p : f64 * f64 * trace) : Prop := finite (fst (fst p)) /\ finite (snd (fst p)) /\ fold_left (cstep w) (snd p) None <> None.
Lemma drawn_contents : forall w rnd cfg t F, document w rnd cfg t F -> Forall drawn_page (pages_of t) -> Forall (has_contents w) (pages_of t).
Proof.
  intros w rnd cfg t F D HP. destruct (doc_facts _ _ _ _ _ D) as (g0 & g & bs & info & S & R & _). rewrite Forall_forall in *. intros p Hp. destruct (HP p Hp) as (F1 & F2 & X). split; [exact F1|]. split; [exact F2|].
  destruct (made_some w (snd p)) with (oc := @None (list gcache)) as (cs & ->); [|discriminate]. apply Exists_exists in X. destruct X as (x & X1 & X2). apply Exists_exists. exists x. split; [exact X1|]. eapply draws_some; eauto. eapply pages_in; eauto.
Qed.

Lemma doc_more : forall w rnd cfg t F, document w rnd cfg t F -> cfg_use cfg = false -> Forall (has_contents w) (pages_of t) ->
  exists g0 g bs l fs xs, g_start rnd cfg gp0 = Ok g0 /\ runs w g0 t g /\ F = file bs None (info_of t) /\
  nth_error bs 0 = Some catalog_build /\ nth_error bs 1 = Some (pages_build (cfg_w cfg) (cfg_h cfg) (Z.of_nat (List.length l)) (flat_map g_ref (map fst l))) /\
  nth_error bs 2 = Some (procset_build fs xs 0) /\ Forall (fun x => 0 <= x < Z.of_nat (List.length bs)) xs /\
  Forall (fun r => 0 <= r_count r < Z.of_nat (List.length fs) /\ 0 <= r_obj r < Z.of_nat (List.length bs)) fs /\
  Forall2 (page_at w g bs) l (pages_of t) /\ NoDup (map fst l) /\ NoDup (map snd l) /\ (forall a c, In a (map fst l) -> In c (map snd l) -> a <> c).
Proof.
  intros w rnd cfg t F D NU HP. destruct (doc_any _ _ _ _ _ D) as (g0 & g & bs & enc & l & fs & xs & S & R & EF & _ & NE & B0 & B1 & B2 & Bx & Bf & Fl & N1 & N2 & Ap).
  destruct (NE NU) as (-> & Pr).
  assert (HD : forall p, In p (pages_of t) -> exists cs, fold_left (cstep w) (snd p) None = Some cs).
  { intros p Hp. rewrite Forall_forall in HP. destruct (HP p Hp) as (_ & _ & X). destruct (fold_left (cstep w) (snd p) None) as [cs|]; [eauto|congruence]. }
  assert (G : exists l', map fst l' = map fst l /\ map snd l' = flat_map (fun x => one (snd x)) l /\ Forall2 (page_at w g bs) l' (pages_of t)).
  { clear -Fl HD Pr. induction Fl as [|x p l ps (H3 & N & M) _ IH]; [exists []; repeat split; constructor|].
    destruct IH as (l' & E1 & E2 & F2); [intros q Hq; apply HD; right; exact Hq|]. destruct (HD p (or_introl eq_refl)) as (cs & Ecs). destruct x as (i, [c|]); cbn [fst snd] in *; [|congruence].
    exists ((i, c) :: l'). cbn [map fst snd flat_map one app]. rewrite E1, E2. split; [reflexivity|]. split; [reflexivity|]. constructor; [|exact F2].
    unfold page_at. cbn [fst snd]. destruct M as (M3 & M). rewrite Pr in M. cbn [one flat_map] in N. rewrite app_nil_r in N. auto. }
  destruct G as (l' & E1 & E2 & F2). exists g0, g, bs, l', fs, xs. split; [exact S|]. split; [exact R|]. split; [exact EF|]. split; [exact B0|].
  split; [rewrite E1; replace (List.length l') with (List.length l) by (rewrite <- (map_length fst l), <- E1; apply map_length); exact B1|]. split; [exact B2|]. split; [exact Bx|]. split; [exact Bf|]. split; [exact F2|].
  split; [rewrite E1; exact N1|]. split; [rewrite E2; exact N2|]. rewrite E1, E2. exact Ap.
Qed.
