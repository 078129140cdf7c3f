(** Every crash of opening has one of the causes of ParseSpec. *)
From Coq Require Import String List ZArith Lia Bool.
From Coq.Floats Require Import SpecFloat.
From Verif Require Import Base BaseProofs Output Props PropsSpec PropsFlat PropsFinal PdfData PagesSpec PagesProofs Float64 Parse ParseFind ParseProofs ParseSpec ParseFinal.
Open Scope Z_scope.
Open Scope list_scope.

Lemma atoi_total : forall s, atoi s <> Panic /\ atoi s <> Diverge.
Proof.
  intros s. unfold atoi. destruct (match s with [] => _ | _ => _ end) as [neg body].
  destruct (atou body); [|split; discriminate]. destruct (_ && _); split; discriminate.
Qed.

Lemma readObjID_total : forall s, readObjID s <> Panic /\ readObjID s <> Diverge.
Proof.
  intros s. unfold readObjID. destruct (trim_space s) as [|c t]; [split; discriminate|].
  destruct (split1 32 (c :: t)) as [|a [|b [|d [|]]]]; try (split; discriminate). apply atoi_total.
Qed.

Lemma readProps_total : forall s, readProperties s <> Panic /\ readProperties s <> Diverge.
Proof. intros s. destruct (readProperties_total s) as [[ps E]|E]; rewrite E; split; discriminate. Qed.

Lemma xref_parse_total : forall s, xref_parse s <> Panic /\ xref_parse s <> Diverge.
Proof.
  intros s. unfold xref_parse. destruct (split1 32 (trim_space s)) as [|a [|b [|c l]]]; try (split; discriminate).
  destruct (atoi_total (trim_space a)) as [A1 A2]. destruct (atoi (trim_space a)); try congruence; try (split; discriminate).
  destruct (atoi_total (trim_space b)) as [B1 B2]. destruct (atoi (trim_space b)); try congruence; try (split; discriminate).
  cbn [bind]. destruct (_ || _); split; discriminate.
Qed.

Lemma rows_total : forall raw start ms acc, snd (xref_rows_of raw start ms acc) <> Panic.
Proof.
  induction ms as [|[i j] ms IH]; intros acc; cbn [xref_rows_of]; [discriminate|].
  destruct (i <? start)%nat; [apply IH|]. destruct (xref_parse_total (sub raw i j)) as [H1 H2].
  destruct (xref_parse (sub raw i j)); try congruence; try discriminate; apply IH.
Qed.

Lemma parseXref_total : forall raw xs, snd (parseXref raw xs) <> Panic.
Proof. intros raw xs. unfold parseXref. destruct (find_first _ raw) as [[a b]|]; [apply rows_total|discriminate]. Qed.

Lemma index_first : forall p raw n, index p raw = Some n -> first_at p raw (Z.of_nat n).
Proof.
  intros p raw n H. apply index_some in H. destruct H as [(a & b & E & L) M]. exists a, b. split; auto. split; [unfold blen; lia|].
  intros a' b' E'. destruct (Z_lt_le_dec (blen a') (Z.of_nat n)); auto. exfalso. apply (M (List.length a')); [unfold blen in *; lia|].
  exists a', b'. auto.
Qed.

Lemma find_lit_le : forall p s i j, p <> [] -> find_first (m_lit p) s = Some (i, j) -> (j <= List.length s)%nat /\ j = (i + List.length p)%nat /\ first_at p s (Z.of_nat i).
Proof.
  intros p s i j Hp H. rewrite find_lit in H by auto. destruct (index p s) as [n|] eqn:E; [|discriminate].
  injection H as <- <-. pose proof (index_first _ _ _ E) as F. apply index_some in E. destruct E as [O _]. apply occ_len in O. split; [lia|]. auto.
Qed.

Lemma parseTrailer_crash : forall raw, parseTrailer raw = Panic ->
  exists t s, first_at (B"trailer") raw t /\ first_at (B"startxref") raw s /\ s < t + 7.
Proof.
  intros raw H. unfold parseTrailer in H. destruct (find_first (m_lit (B"trailer")) raw) as [[i t]|] eqn:E1; [|discriminate].
  destruct (find_first (m_lit (B"startxref")) raw) as [[s j]|] eqn:E2; [|discriminate].
  apply find_lit_le in E1; [|discriminate]. apply find_lit_le in E2; [|discriminate].
  destruct E1 as (L1 & T1 & F1), E2 as (L2 & T2 & F2). change (List.length (B"trailer")) with 7%nat in T1.
  change (List.length (B"startxref")) with 9%nat in T2.
  exists (Z.of_nat i), (Z.of_nat s). split; auto. split; auto.
  destruct (Z_lt_le_dec (Z.of_nat s) (Z.of_nat i + 7)); auto. exfalso.
  unfold slice in H. rewrite (proj2 (Z.leb_le 0 (Z.of_nat t))) in H by lia. rewrite (proj2 (Z.leb_le (Z.of_nat t) (Z.of_nat s))) in H by lia.
  rewrite (proj2 (Z.leb_le (Z.of_nat s) (blen raw))) in H by (unfold blen; lia). cbn [andb bind] in H.
  destruct (readProps_total (firstn (Z.to_nat (Z.of_nat s - Z.of_nat t)) (skipn (Z.to_nat (Z.of_nat t)) raw))) as [R1 R2].
  destruct (readProperties _) as [ps| | |]; try congruence; try discriminate. cbn [bind] in H.
  destruct (getPropByKey (B"Root") ps); [|discriminate]. now apply readObjID_total in H.
Qed.

Lemma obj_parse_crash : forall raw n, obj_parse raw n = Panic -> ~ (0 <= n <= blen raw).
Proof.
  intros raw n H L. unfold obj_parse, from in H. unfold blen in L. rewrite (proj2 (Z.leb_le 0 n)) in H by lia. rewrite (proj2 (Z.leb_le _ _)) in H by lia.
  cbn [andb bind] in H. destruct (find_first (m_lit (B"endobj")) _) as [[e k]|]; [|discriminate].
  destruct (find_first m_startobj _) as [[i j]|]; [|discriminate].
  unfold objIDFromStartObjLine in H. destruct (fields _) as [|a [|b [|c l]]]; try discriminate.
  destruct (atoi_total (trim_space a)) as [A1 A2]. destruct (atoi (trim_space a)); try congruence; discriminate.
Qed.

Lemma parseObjs_crash : forall raw xs p, snd (parseObjs raw xs p) = Panic -> exists n, In (n, B"n") xs /\ ~ (0 <= n <= blen raw).
Proof.
  induction xs as [|[n k] xs IH]; intros p H; cbn [parseObjs] in H; [discriminate|].
  destruct (beqb k (B"n")) eqn:K.
  - apply beqb_eq in K. subst k. destruct (obj_parse raw n) as [o|e| |] eqn:E; try discriminate.
    + destruct (IH _ H) as (m & I1 & I2). exists m. split; [now right|auto].
    + exists n. split; [now left|]. now apply obj_parse_crash.
  - destruct (IH _ H) as (m & I1 & I2). exists m. split; [now right|auto].
Qed.

Lemma parseObjs_total : forall raw xs p, snd (parseObjs raw xs p) <> Diverge.
Proof.
  induction xs as [|[n k] xs IH]; intros p; cbn [parseObjs]; [discriminate|].
  destruct (beqb k (B"n")); [|apply IH]. destruct (obj_parse raw n) as [o|e| |] eqn:E; cbn [snd]; try discriminate; [apply IH|].
  exfalso. unfold obj_parse, from in E. destruct (_ && _); [|discriminate]. cbn [bind] in E.
  destruct (find_first (m_lit (B"endobj")) _) as [[e k']|]; [|discriminate].
  destruct (find_first m_startobj _) as [[i j]|]; [|discriminate].
  unfold objIDFromStartObjLine in E. destruct (fields _) as [|a [|b [|c l]]]; try discriminate.
  destruct (atoi_total (trim_space a)) as [A1 A2]. destruct (atoi (trim_space a)); try congruence; discriminate.
Qed.

Lemma indices_nil : forall id os n, indices id n os = [] -> ~ In id (map oid os).
Proof.
  induction os as [|o os IH]; intros n H; cbn [map]; [auto|]. cbn [indices] in H.
  destruct (Z.eqb_spec (oid o) id); [discriminate|]. intros [E|Hin]; [congruence|]. now apply (IH (S n)).
Qed.

Lemma get_total : forall id os, (exists o, getObj id os = Ok o) \/ (getObj id os = Panic /\ ~ In id (map oid os)).
Proof.
  intros id os. unfold getObj. destruct (getIdx id os) as [i|] eqn:E.
  - left. apply getIdx_oid in E. destruct E as (o & -> & _). exists o. reflexivity.
  - right. split; auto. unfold getIdx in E. destruct (indices id 0 os) as [|a [|]] eqn:N; try discriminate. now apply (indices_nil id os 0).
Qed.

Lemma visit_crash : forall raw xs p fuel id, followed p id ->
  (visit fuel (objs p) id = Panic -> crash raw xs p) /\
  (forall ids, visit fuel (objs p) id = Ok ids -> forall n, In n ids ->
     followed p n /\ exists o ps, version (objs p) n o /\ entries o ps /\ has_key ps (B"Page")).
Proof.
  intros raw xs p. induction fuel as [|f IH]; intros id F; cbn [visit]; [split; [|intros ids]; discriminate|].
  destruct (get_total id (objs p)) as [[o E]|[E N]]; rewrite E; cbn [bind]; [|split; [intros _; now apply (cr_node raw xs p id)|discriminate]].
  pose proof (get_version _ _ _ E) as V. destruct (readProps_total (odata o)) as [R1 R2].
  destruct (readProperties (odata o)) as [ps|e| |] eqn:R; try congruence; [|split; [discriminate|]; intros ids H; injection H as <-; intros n []].
  assert (P : (Ok (if isPage ps then [id] else []) = Panic -> crash raw xs p) /\
     (forall ids, Ok (if isPage ps then [id] else []) = Ok ids -> forall n, In n ids ->
     followed p n /\ exists o ps, version (objs p) n o /\ entries o ps /\ has_key ps (B"Page"))).
  { split; [discriminate|]. intros ids H. injection H as <-. intros n Hn. unfold isPage in Hn.
    destruct (getPropByKey (B"Page") ps) as [q|] eqn:G; [|destruct Hn]. destruct Hn as [<-|[]]. split; auto.
    exists o, ps. split; auto. split; auto. apply get_value in G. destruct G as [_ G]. now apply value_has in G. }
  destruct (getPropByKey (B"Pages") ps) as [q|] eqn:G1; [|exact P].
  destruct (getPropByKey (B"Kids") ps) as [kid|] eqn:G2; [|exact P].
  apply get_value in G1. destruct G1 as [_ G1]. apply value_has in G1. apply get_value in G2. destruct G2 as [_ G2].
  destruct (readObjIDs (pval kid)) as [ids|e| |] eqn:K; [|exact P| |split; [|intros ids]; discriminate].
  2:{ split; [|discriminate]. intros _. now apply (cr_kids raw xs p id o ps (pval kid)). }
  assert (KF : forall i, In i ids -> followed p i) by (intros i Hi; now apply (fol_kid p id o ps (pval kid) ids)).
  clear K. induction ids as [|k l IHl]; [split; [discriminate|]; intros ids H; injection H as <-; intros n []|].
  destruct (IH k (KF k (or_introl eq_refl))) as [A1 A2].
  destruct (IHl (fun i Hi => KF i (or_intror Hi))) as [B1 B2].
  destruct (visit f (objs p) k) as [a| | |]; cbn [bind]; try (split; [now auto|discriminate]).
  match goal with |- context [bind ?x _] => destruct x as [b| | |] end; cbn [bind]; try (split; [now auto|discriminate]).
  - split; [discriminate|]. intros ids H. injection H as <-. intros n Hn. apply in_app_iff in Hn. destruct Hn; [now apply (A2 a)|now apply (B2 b)].
Qed.

Lemma parse_all_total : forall float ts, (forall t, float t <> Panic) -> parse_all float ts <> Panic.
Proof.
  intros float ts H. induction ts as [|t ts IH]; cbn [parse_all]; [discriminate|].
  specialize (H t). destruct (float t); cbn [bind]; try congruence; try discriminate.
  destruct (parse_all float ts); cbn [bind]; try congruence; discriminate.
Qed.

Lemma sizes_crash : forall float raw xs p ids n acc, (forall t, float t <> Panic) ->
  (forall i, In i ids -> followed p i /\ exists o ps, version (objs p) i o /\ entries o ps /\ has_key ps (B"Page")) ->
  snd (page_sizes float (objs p) n ids acc) = Panic -> crash raw xs p.
Proof.
  intros float raw xs p ids n acc HF. revert n acc. induction ids as [|i ids IH]; intros n acc H E; cbn [page_sizes] in E; [discriminate|].
  destruct (H i (or_introl eq_refl)) as (F & o & ps & V & R & P). rewrite (version_get _ _ _ V) in E. cbn [bind] in E.
  unfold readProperty in E. rewrite R in E. cbn [bind] in E.
  destruct (getPropByKey (B"MediaBox") ps) as [q|] eqn:G.
  - assert (IH' := fun n acc => IH n acc (fun i Hi => H i (or_intror Hi))).
    destruct (propertyType (pval q)); try (now apply (IH' _ _ E)).
    destruct (parseFloatSlice float (pval q)) eqn:PF; try discriminate; [now apply (IH' _ _ E)|].
    exfalso. unfold parseFloatSlice in PF. now apply parse_all_total in PF.
  - apply (cr_box raw xs p i o ps); auto. now apply get_none.
Qed.

Lemma open_crash : forall float fuel raw d, (forall t, float t <> Panic) ->
  PDFParse float fuel raw nodoc = (d, Panic) -> crash raw (d_xrefs d) (d_pdf d).
Proof.
  intros float fuel raw d HF H. unfold PDFParse in H. cbn [nodoc d_xrefs d_pdf d_sizes] in H.
  pose proof (parseXref_total raw []) as PX. destruct (parseXref raw []) as [xs r1]. cbn [snd] in PX.
  destruct r1 as [u| | |]; [|discriminate|congruence|discriminate].
  destruct (parseTrailer raw) as [rt| | |] eqn:PT; [|discriminate| |discriminate].
  2:{ apply parseTrailer_crash in PT. destruct PT as (t & s & F1 & F2 & L). injection H as <-. cbn [d_xrefs d_pdf]. now apply (cr_trailer raw xs _ t s). }
  pose proof (parseObjs_crash raw xs (mkPdf rt [])) as PO. cbn [objs] in H.
  destruct (parseObjs raw xs (mkPdf rt [])) as [p r2] eqn:EP. cbn [snd] in PO.
  destruct r2 as [u2|e2| |]; [|discriminate| |discriminate].
  2:{ destruct (PO eq_refl) as (n & N1 & N2). injection H as <-. cbn [d_xrefs d_pdf]. now apply (cr_row raw xs _ n). }
  unfold setPagesObj in H.
  destruct (get_total (root p) (objs p)) as [[o E]|[E N]].
  2:{ rewrite E in H. cbn [bind] in H. injection H as <-. cbn [d_xrefs d_pdf]. now apply cr_root. }
  rewrite E in H. cbn [bind] in H. pose proof (get_version _ _ _ E) as V.
  destruct (readProps_total (odata o)) as [R1 R2]. destruct (readProperties (odata o)) as [ps|e| |] eqn:R; try congruence; try discriminate.
  cbn [bind] in H. destruct (getPropByKey (B"Pages") ps) as [pr|] eqn:G; [|discriminate].
  destruct (readObjID_total (pval pr)) as [I1 I2]. destruct (readObjID (pval pr)) as [pid|e| |] eqn:I; try congruence; try discriminate.
  cbn [bind] in H. unfold getPageObjIDs in H. rewrite E in H. cbn [bind] in H. rewrite R, G, I in H.
  assert (F : followed p pid).
  { apply get_value in G. destruct G as [_ G]. now apply (fol_pages p o ps (pval pr)). }
  destruct (visit_crash raw xs p fuel pid F) as [V1 V2].
  destruct (visit fuel (objs p) pid) as [ids| | |]; try discriminate.
  - pose proof (fun n acc => sizes_crash float raw xs p ids n acc HF (V2 ids eq_refl)) as S.
    specialize (S 0 []). destruct (page_sizes float (objs p) 0 ids []) as [s r3]. cbn [snd] in S. injection H as <- ->. now apply S.
  - injection H as <-. cbn [d_xrefs d_pdf]. now apply V1.
Qed.
