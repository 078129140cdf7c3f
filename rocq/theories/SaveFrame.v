(** Documents that differ in some objects only, and the objects that are added. *)
From Coq Require Import String List ZArith Lia Bool Permutation.
From Verif Require Import Base BaseProofs Output OutputSpec OutputProofs Props PropsSpec PropsNorm PdfData PagesSpec PagesProofs PagesEdit PagesOps
  Crawl Inject CrawlProofs CrawlVisits InjectSpec InjectVisits InjectPages InjectFonts InjectFinal ContentSpec ContentProofs ContentFinal ImgSpec ImgLists SaveSpec.
Open Scope Z_scope.
Open Scope list_scope.

(** ** The same at some numbers *)
Definition same_at (os os' : list obj) (j : Z) : Prop := forall o, version os j o -> version os' j o.
Definition alike_at (os os' : list obj) (j : Z) : Prop := has_obj os' j = has_obj os j /\ data_of os' j = data_of os j.

Lemma alike_same : forall os os' j, alike_at os os' j -> same_at os os' j.
Proof.
  intros os os' j (H & D) o V. pose proof (version_oid _ _ _ V) as Eo. apply version_get in V. unfold has_obj, data_of in H, D. rewrite V in H, D.
  destruct (getObj j os') as [o'| | |] eqn:E; try discriminate. apply get_version in E. pose proof (version_oid _ _ _ E) as Eo'.
  replace o with o'; [exact E|]. destruct o, o'. cbn in *. congruence.
Qed.
Lemma same_entries : forall os os' j ps, same_at os os' j -> dict os j ps -> dict os' j ps.
Proof. intros os os' j ps S (o & V & E). exists o. split; [apply S; exact V|exact E]. Qed.
Lemma same_trans : forall a b c j, same_at a b j -> same_at b c j -> same_at a c j.
Proof. intros a b c j H1 H2 o V. apply H2, H1, V. Qed.

(** ** Objects added behind the others *)
Lemma version_unique : forall os j o, NoDup (map oid os) -> In o os -> oid o = j -> version os j o.
Proof.
  intros os j o N H E. apply in_split in H. destruct H as (a & b & ->). exists a, b. split; [reflexivity|]. split; [exact E|].
  assert (U : forall q, In q (a ++ b) -> oid q <> j).
  { intros q Hq Eq. rewrite map_app in N. cbn [map] in N. apply NoDup_remove_2 in N. apply N. rewrite <- map_app, E, <- Eq. apply in_map. exact Hq. }
  destruct (readProperties (odata o)) as [ps| | |] eqn:R.
  - destruct (in_dec (fun x y => list_eq_dec Z.eq_dec x y) (B"Annots") (map pkey ps)) as [I'|I'].
    + left. split; [exists ps; split; [exact R|apply keys_has; exact I']|]. intros q Hq Eq. exfalso. apply (U q); [apply in_or_app; auto|exact Eq].
    + right. split; [|intros q Hq; apply U; apply in_or_app; auto]. intros q Hq Eq. apply in_app_or in Hq. destruct Hq as [Hq|[<-|Hq]].
      * exfalso. apply (U q); [apply in_or_app; auto|exact Eq].
      * intros (ps' & R' & K). unfold entries in R'. rewrite R in R'. injection R' as <-. apply I'. apply keys_has. exact K.
      * exfalso. apply (U q); [apply in_or_app; auto|exact Eq].
  - right. split; [|intros q Hq; apply U; apply in_or_app; auto]. intros q Hq Eq. apply in_app_or in Hq. destruct Hq as [Hq|[<-|Hq]];
      try (exfalso; apply (U q); [apply in_or_app; auto|exact Eq]). intros (ps' & R' & _). unfold entries in R'. congruence.
  - right. split; [|intros q Hq; apply U; apply in_or_app; auto]. intros q Hq Eq. apply in_app_or in Hq. destruct Hq as [Hq|[<-|Hq]];
      try (exfalso; apply (U q); [apply in_or_app; auto|exact Eq]). intros (ps' & R' & _). unfold entries in R'. congruence.
  - right. split; [|intros q Hq; apply U; apply in_or_app; auto]. intros q Hq Eq. apply in_app_or in Hq. destruct Hq as [Hq|[<-|Hq]];
      try (exfalso; apply (U q); [apply in_or_app; auto|exact Eq]). intros (ps' & R' & _). unfold entries in R'. congruence.
Qed.
Lemma same_added : forall os more j, NoDup (map oid (os ++ more)) -> same_at os (os ++ more) j.
Proof.
  intros os more j N o V. apply version_unique; [exact N| |apply (version_oid _ _ _ V)]. apply in_or_app. left. apply (version_in _ _ _ V).
Qed.

(** What is added stays at the end. *)
Lemma added_kept : forall os more os', NoDup (map oid (os ++ more)) -> map oid os' = map oid (os ++ more) ->
  (forall j, In j (map oid more) -> same_at (os ++ more) os' j) -> exists os1, os' = os1 ++ more /\ map oid os1 = map oid os.
Proof.
  intros os more os' N E S. exists (firstn (List.length os) os').
  assert (L : map oid (firstn (List.length os) os') = map oid os /\ map oid (skipn (List.length os) os') = map oid more).
  { rewrite <- firstn_map, <- skipn_map, E, map_app. rewrite <- (map_length oid os). split.
    - rewrite firstn_app, firstn_all, Nat.sub_diag. cbn. apply app_nil_r.
    - rewrite skipn_app, skipn_all, Nat.sub_diag. reflexivity. }
  destruct L as (L1 & L2). split; [|exact L1]. rewrite <- (firstn_skipn (List.length os) os') at 1. f_equal.
  assert (N' : NoDup (map oid os')) by (rewrite E; exact N).
  assert (I' : forall o, In o more -> In o (skipn (List.length os) os')).
  { intros o Ho. assert (V : version os' (oid o) o).
    { apply S; [apply in_map; exact Ho|]. apply version_unique; [exact N|apply in_or_app; auto|reflexivity]. }
    apply version_in in V. rewrite <- (firstn_skipn (List.length os) os') in V. apply in_app_or in V. destruct V as [V|V]; [|exact V]. exfalso.
    apply (in_map oid) in V. rewrite L1 in V. apply in_split in Ho. destruct Ho as (a & b & ->). rewrite !map_app in N. cbn [map] in N.
    rewrite app_assoc in N. apply NoDup_remove_2 in N. apply N. rewrite !in_app_iff. auto. }
  assert (Nm : NoDup (map oid (skipn (List.length os) os'))).
  { rewrite L2. rewrite map_app in N. clear - N. induction (map oid os) as [|x l IH]; [exact N|]. apply IH. inversion N; assumption. }
  clear - L2 I' Nm. revert more L2 I'. induction (skipn (List.length os) os') as [|x l IH]; intros [|y more] L2 I'; try discriminate; [reflexivity|].
  cbn [map] in L2, Nm. injection L2 as Ex L2. apply NoDup_cons_iff in Nm as (N1 & N2).
  assert (x = y).
  { destruct (I' y (or_introl eq_refl)) as [H|H]; [exact H|]. exfalso. apply N1. rewrite Ex. apply in_map. exact H. }
  subst y. f_equal. apply IH; [exact N2|exact L2|]. intros o Ho. destruct (I' o (or_intror Ho)) as [<-|H]; [|exact H].
  exfalso. apply N1. rewrite L2. apply in_map. exact Ho.
Qed.

(** ** Page trees, contents *)
Lemma holds_same : forall os os' t, holds os t -> (forall j, In j (tree_ids t) -> same_at os os' j) -> holds os' t.
Proof.
  intros os os'. fix IH 2. intros t H S. destruct H as [id o ps V E P|id o ps v ts V E P K F].
  - eapply h_leaf; eauto. apply S; [left; reflexivity|exact V].
  - eapply h_node; eauto; [apply S; [left; reflexivity|exact V]|].
    assert (S' : forall j, In j (flat_map tree_ids ts) -> same_at os os' j) by (intros j Hj; apply S; right; exact Hj). clear - IH F S'.
    induction F as [|t ts H F IHF]; constructor.
    + apply IH; [exact H|]. intros j Hj. apply S'. cbn [flat_map]. apply in_or_app. auto.
    + apply IHF. intros j Hj. apply S'. cbn [flat_map]. apply in_or_app. auto.
Qed.
Lemma tree_same : forall p p' rid ts, page_tree p (Node rid ts) -> root p' = root p ->
  (forall j, In j (root p :: rid :: flat_map tree_ids ts) -> same_at (objs p) (objs p') j) -> page_tree p' (Node rid ts).
Proof.
  intros p p' rid ts ((c & ps & v & V & E & Vp & R) & H) Er S. split.
  - exists c, ps, v. rewrite Er. split; [apply S; [left; reflexivity|exact V]|auto].
  - apply (holds_same (objs p)); [exact H|]. intros j Hj. apply S. right. exact Hj.
Qed.

(** The same with entries added. *)
Definition grown_at (os os' : list obj) (j : Z) : Prop := forall ps, dict os j ps -> exists ps', dict os' j ps' /\ with_resources ps ps'.
Lemma same_grown : forall os os' j, same_at os os' j -> grown_at os os' j.
Proof. intros os os' j S ps D. exists ps. split; [apply (same_entries os); auto|]. split; auto. Qed.
Lemma with_has : forall ps ps' k, with_resources ps ps' -> k <> B"XObject" -> k <> B"Resources" -> has_key ps' k <-> has_key ps k.
Proof.
  intros ps ps' k (W1 & W2) Ne Nr. split; [intros H; apply W2 in H; tauto|]. intros (v & Hv).
  assert (E : exists w, value ps k w) by (destruct (value_first ps k) as (w & V & _); [exists v; exact Hv|exists w; exact V]).
  destruct E as (w & V). apply W1 in V; [|exact Nr]. eapply value_has; eauto.
Qed.
Lemma holds_grown : forall os os' t, holds os t -> (forall j, In j (tree_ids t) -> grown_at os os' j) -> holds os' t.
Proof.
  intros os os'. fix IH 2. intros t H S. destruct H as [id o ps V E P|id o ps v ts V E P K F].
  - destruct (S id (or_introl eq_refl) ps) as (ps' & (o' & V' & E') & W); [exists o; auto|]. apply (h_leaf os' id o' ps'); auto.
    destruct P as (P1 & P2). split; [apply (with_has ps); auto; discriminate|]. intros (Q1 & Q2). apply P2. split; [apply (with_has ps ps' (B"Pages") W)|apply (with_has ps ps' (B"Kids") W)]; auto; discriminate.
  - destruct (S id (or_introl eq_refl) ps) as (ps' & (o' & V' & E') & W); [exists o; auto|]. apply (h_node os' id o' ps' v ts); auto.
    + destruct P as (P1 & P2 & P3). split; [apply (with_has ps); auto; discriminate|]. split; [|apply W; [discriminate|exact P3]].
      intros Q. apply P2. apply (with_has ps ps' (B"Page") W); auto; discriminate.
    + assert (S' : forall j, In j (flat_map tree_ids ts) -> grown_at os os' j) by (intros j Hj; apply S; right; exact Hj). clear - IH F S'.
      induction F as [|t ts H F IHF]; constructor.
      * apply IH; [exact H|]. intros j Hj. apply S'. cbn [flat_map]. apply in_or_app. auto.
      * apply IHF. intros j Hj. apply S'. cbn [flat_map]. apply in_or_app. auto.
Qed.
Lemma tree_grown : forall p p' rid ts, page_tree p (Node rid ts) -> root p' = root p ->
  (forall j, In j (root p :: rid :: flat_map tree_ids ts) -> grown_at (objs p) (objs p') j) -> page_tree p' (Node rid ts).
Proof.
  intros p p' rid ts ((c & ps & v & V & E & Vp & R) & H) Er S. split.
  - destruct (S (root p) (or_introl eq_refl) ps) as (ps' & (o' & V' & E') & W); [exists c; auto|]. exists o', ps', v. rewrite Er. split; [exact V'|]. split; [exact E'|].
    split; [apply W; [discriminate|exact Vp]|exact R].
  - apply (holds_grown (objs p)); [exact H|]. intros j Hj. apply S. right. exact Hj.
Qed.

(** The entry for the content stream stays. *)
Definition contents_kept (ps ps' : list prop) : Prop := (has_key ps' (B"Contents") -> has_key ps (B"Contents")) /\ forall v, only ps (B"Contents") v -> only ps' (B"Contents") v.

Lemma source_same : forall inflate os os' (chg : Z -> Prop) pid src, (forall j, chg j \/ same_at os os' j) -> (forall j, chg j -> exists ps, dict os j ps) ->
  (forall ps, dict os pid ps -> exists ps', dict os' pid ps' /\ contents_kept ps ps') ->
  (forall cid s, src = Some (cid, s) -> ~ chg cid) -> source inflate os pid src -> source inflate os' pid src.
Proof.
  intros inflate os os' chg pid src S D Np Nc H.
  assert (S' : forall j, ~ chg j -> same_at os os' j) by (intros j N; destruct (S j); [contradiction|assumption]).
  inversion H as [o ps V E N Eq|o ps v cid co cps raw s V E O Rv Vc ST PS Dc Eq]; subst src.
  - destruct (Np ps) as (ps' & (o' & V' & E') & (Nb & _)); [exists o; auto|]. eapply src_none; [exact V'|exact E'|]. intros Hv. apply N, Nb, Hv.
  - destruct (Np ps) as (ps' & (o' & V' & E') & (_ & Nb)); [exists o; auto|]. pose proof (Nb v O) as O'.
    eapply src_some; [exact V'|exact E'|exact O'|eassumption|apply S'; eauto| |eassumption|eassumption].
    destruct ST as (hd & eol & t & u & X1 & X2 & X3 & X6 & X4 & X5). exists hd, eol, t, u. split; [exact X1|]. split; [exact X2|]. split; [exact X3|]. split; [exact X6|]. split; [exact X4|].
    destruct X5 as [v0 H0 A|v0 id o0 H0 I' W A]; [eapply dec_direct; eauto|]. eapply dec_ref; eauto. destruct (S id) as [C|C]; [|apply C; exact W].
    exfalso. destruct (D id C) as (ps0 & o1 & V1 & E1). assert (o1 = o0) by (eapply version_inj; eauto). subst. eapply not_number; eauto.
Qed.

(** ** Dictionaries of pages that do not use some objects *)
Definition dict_off (X : Z -> Prop) (os : list obj) (id : Z) (ps : list prop) : Prop := ~ X id /\ dict os id ps.
Definition points_off (X : Z -> Prop) (os : list obj) (v : bytes) (ps : list prop) : Prop :=
  (propertyType v = PObject /\ readProperties v = Ok ps) \/ (exists n, readObjID v = Ok n /\ dict_off X os n ps).
Definition page_off (X : Z -> Prop) (K : bytes) (os : list obj) (id : Z) (fps : list prop) : Prop :=
  exists ps v rps w, dict_off X os id ps /\ value ps (B"Resources") v /\ points_off X os v rps /\ value rps K w /\ points_off X os w fps.
Lemma page_off_same : forall X K os os' id fps, (forall j, ~ X j -> same_at os os' j) -> page_off X K os id fps -> page_dict K os' id fps.
Proof.
  intros X K os os' id fps S (ps & v & rps & w & D & V & P & W & Q).
  assert (P' : forall v ps, points_off X os v ps -> points os' v ps).
  { intros v0 ps0 [H|(n & R & N & Dn)]; [left; exact H|]. right. exists n. split; [exact R|]. apply (same_entries os); auto. }
  exists ps, v, rps, w. split; [destruct D as (N & D); apply (same_entries os); auto|]. split; [exact V|]. split; [apply P'; exact P|]. split; [exact W|]. apply P'; exact Q.
Qed.

(** ** Tidy documents *)
Lemma tidy_same : forall K p p' rid ts info info', tidy K p rid ts info -> root p' = root p -> NoDup (map oid (objs p')) ->
  (forall j, In j (root p :: rid :: flat_map tree_ids ts) -> ~ In j (flat_map leaves ts) -> same_at (objs p) (objs p') j) ->
  (forall L, In L (flat_map leaves ts) -> res_objects (info' L) = res_objects (info L) /\ incl (font_objects (info' L)) (font_objects (info L))) ->
  (forall L, In L (flat_map leaves ts) -> exists ps, page_is K (objs p') L ps (info' L) /\ ~ has_key ps K /\ ~ mentions ps (B"/Pages") /\
     match info' L with ResIn rps _ | ResAt _ rps _ => ~ mentions rps (B"/Pages") | NoRes => True end) ->
  tidy K p' rid ts info'.
Proof.
  intros K p p' rid ts info info' T Er N S Ho Hp.
  assert (D : forall j ps, isNode p rid ts j -> dict (objs p) j ps -> dict (objs p') j ps).
  { intros j ps Hj. apply same_entries, S; [apply node_in; exact Hj|]. intros HL. exact (node_leaf _ _ _ _ T j Hj HL). }
  constructor.
  - exact N.
  - rewrite Er. apply (td_distinct _ _ _ _ T).
  - destruct (td_catalog _ _ _ _ T) as (ps & v & Dc & R). exists ps, v. rewrite Er. split; [apply D; [left; reflexivity|exact Dc]|exact R].
  - destruct (td_root _ _ _ _ T) as (ps & v & Dc & R). exists ps, v. split; [apply D; [right; left; reflexivity|exact Dc]|exact R].
  - apply (td_levels _ _ _ _ T).
  - intros id kids H. destruct (td_inner _ _ _ _ T id kids H) as (ps & v & Dc & R). exists ps, v. split; [|exact R]. apply D; [|exact Dc]. right. right. eauto.
  - exact Hp.
  - intros id r f id' H1 H2. rewrite Er. destruct (Ho id H1) as (E1 & E2). destruct (Ho id' H2) as (E3 & _). rewrite E1, E3.
    destruct (td_apart _ _ _ _ T id r f id' H1 H2) as (A1 & A2). split; [exact A1|]. intros H. apply A2, E2, H.
Qed.

(** ** The file *)
Lemma file_is : forall os last r, NoDup (map oid os) -> 0 <= last -> 0 <= r -> (forall o, In o os -> oid o <= last) ->
  blen (toStream os last r None) < 10 ^ 10 -> file_of (toStream os last r None) (mkPdf r os).
Proof.
  intros os last r N Hl Hr Hi HF. split; [exact N|]. rewrite toStream_write in *. cbn [saved saved_last saved_enc] in *.
  exists (blen (pdf_header ++ concat (map obj_text os))), (last + 1). eexists. split; [apply startxref_thm|]. split; [apply section_thm; auto|]. split.
  - cbn [objs]. intros o Ho H1. pose proof (Hi o Ho) as H2. split; [lia|]. apply in_split in Ho. destruct Ho as (a & b & E).
    eapply inuse_thm; eauto. apply Forall_forall. intros q Hq Eq. rewrite E, map_app in N. cbn [map] in N. apply NoDup_remove_2 in N. apply N.
    rewrite <- Eq. apply in_or_app. right. apply in_map. exact Hq.
  - exists (itoa (last + 1)), (itoa r). split; [apply numeral_itoa; lia|]. split; [apply numeral_itoa; auto|]. apply trailer_pos; auto.
Qed.
