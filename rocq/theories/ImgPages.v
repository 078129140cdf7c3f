(** The pages of a tidy document after the images are added. *)
From Coq Require Import String List ZArith Lia Bool Permutation.
From Verif Require Import Base BaseProofs Output Props PropsSpec PropsFlat PropsWrite PropsRead PropsNorm PropsStable PropsRefs PropsFinal PdfData PagesSpec PagesProofs PagesEdit PagesOps
  PiecesRead PiecesNest Crawl Inject CrawlProofs Squeeze CrawlVisits PageCrawl InjectMaps InjectNames InjectItems InjectTexts InjectSpec InjectMarks InjectVisits InjectPages InjectTidy
  InjectFonts InjectFinal ResTexts ImgNames ImgSpec ImgLists ImgCrawl.
Open Scope Z_scope.
Open Scope list_scope.

Notation XO := (B"XObject").

Lemma atoi_range : forall s n, atoi s = Ok n -> in_int n.
Proof.
  intros s n H. unfold atoi in H. destruct (match s with [] => (false, s) | _ => _ end) as [neg body]. destruct (atou body) as [v|]; [|discriminate]. cbv zeta in H.
  destruct ((int64_min <=? _) && _) eqn:E in H; [|discriminate]. inversion H; subst. unfold in_int. lia.
Qed.
Lemma read_range : forall v n, readObjID v = Ok n -> in_int n.
Proof.
  intros v n H. unfold readObjID in H. cbv zeta in H. destruct (trim_space v); [discriminate|].
  destruct (split1 32 _) as [|a [|b0 [|c [|d l]]]]; try discriminate; eapply atoi_range; eauto.
Qed.

(** ** The replacements *)
Definition found_text (xs : list xobj) (l : list item) : option bytes :=
  match valOf XO l with
  | None => None
  | Some v => Some (items_text (setValOf XO (B"<<" ++ xobjs_text (addMissing (xobjs_parse v) xs) ++ B">>" ++ [10]) l))
  end.
Lemma found_in : forall xs rs k, In k (map fst (imgReplacesFound xs rs)) -> In k (map fst rs).
Proof.
  intros xs. induction rs as [|[i l] rs IH]; intros k H; [destruct H|]. cbn [imgReplacesFound flat_map fst snd] in H. rewrite map_app in H.
  apply in_app_or in H. destruct H as [H|H]; [|right; apply IH; exact H]. destruct (valOf XO l); [|destruct H]. destruct H as [<-|[]]. left. reflexivity.
Qed.
Lemma found_get : forall xs rs, NoDup (map fst rs) -> NoDup (map fst (imgReplacesFound xs rs)) /\
  forall k, map_get (imgReplacesFound xs rs) k = match map_get rs k with Some l => found_text xs l | None => None end.
Proof.
  intros xs. induction rs as [|[i l] rs IH]; intros N; [split; [constructor|reflexivity]|]. cbn [map fst] in N. inversion N as [|? ? N1 N2]; subst.
  destruct (IH N2) as (A & G). unfold imgReplacesFound in *. cbn [flat_map fst snd].
  set (R := flat_map _ rs) in *. assert (Ni : ~ In i (map fst R)) by (intros H; apply N1; apply (found_in xs); exact H).
  cbn [map_get]. destruct (valOf XO l) as [v|] eqn:V; cbn [app].
  - split; [cbn [map fst]; constructor; auto|]. intros k. cbn [map_get]. destruct (Z.eqb_spec k i) as [->|]; [unfold found_text; rewrite V; reflexivity|apply G].
  - split; [auto|]. intros k. destruct (Z.eqb_spec k i) as [->|]; [|apply G]. unfold found_text. rewrite V. destruct (map_get R i) eqn:E; [|reflexivity].
    exfalso. apply Ni. apply get_in in E. apply (in_map fst) in E. exact E.
Qed.
Lemma plain_get : forall xs rs, map fst (imgReplacesPlain xs rs) = map fst rs /\
  forall k, map_get (imgReplacesPlain xs rs) k = option_map (fun l => items_text (l ++ [IStr XO (B"<<" ++ xobjs_text xs ++ B">>" ++ [10])])) (map_get rs k).
Proof.
  intros xs rs. unfold imgReplacesPlain. split; [rewrite map_map; reflexivity|]. intros k. induction rs as [|[i l] rs IH]; [reflexivity|].
  cbn [map map_get fst snd]. destruct (k =? i); [reflexivity|apply IH].
Qed.

Lemma vals_in : forall rs k v, In (k, v) (xobjectVals rs) <-> exists l, In (k, l) rs /\ valOf XO l = Some v.
Proof.
  intros rs k v. unfold xobjectVals. rewrite in_flat_map. split.
  - intros ((i & l) & H & E). cbn [fst snd] in E. destruct (valOf XO l) as [w|] eqn:V; [|destruct E]. destruct E as [E|[]]. inversion E; subst. eauto.
  - intros (l & H & V). exists (k, l). split; [auto|]. cbn [fst snd]. rewrite V. left. reflexivity.
Qed.

Lemma scan_char : forall vals xs ch idx old ch' idx', scanXobjs vals xs ch idx = (old, ch', idx') ->
  (forall x, In x xs -> In x old) /\ (ch' = ch \/ exists x, In x old /\ ch' = xo_char x).
Proof.
  induction vals as [|[k v] vals IH]; intros xs ch idx old ch' idx' S; cbn [scanXobjs] in S.
  - inversion S; subst. auto.
  - cbv zeta in S. destruct (rev (xs ++ xobjs_parse v)) as [|x r] eqn:R.
    + destruct (IH _ _ _ _ _ _ S) as (A1 & A2). split; [|auto]. intros y Hy. apply A1. apply in_or_app. auto.
    + destruct (IH _ _ _ _ _ _ S) as (A1 & A2). split; [intros y Hy; apply A1; apply in_or_app; auto|].
      right. destruct A2 as [->|A2]; [|auto]. exists x. split; [|reflexivity]. apply A1. apply in_rev. rewrite R. left. reflexivity.
Qed.

Lemma I_plain : plain_name (B"I").
Proof. split; [repeat constructor; try reflexivity; discriminate|]. apply contains_false. reflexivity. Qed.
Lemma xnew_named : forall imgs ch idx, plain_name ch -> Forall xnamed (newXobjs imgs ch idx).
Proof. intros imgs ch idx P. apply Forall_forall. intros x Hx. destruct (newx_char _ _ _ _ Hx) as (E & _). unfold xnamed, xo_name. rewrite E. apply name_plain. auto. Qed.
Lemma char_plain : forall x, xnamed x -> plain_name (xo_char x).
Proof. intros x H. unfold xnamed, xo_name in H. apply (plain_cut (List.length (xo_char x))) in H. rewrite firstn_app, Nat.sub_diag, firstn_all, app_nil_r in H. exact H. Qed.

(** The image dictionary as read back. *)
Lemma xs_read : forall xs, Forall xnamed xs -> readProperties (norm (xs_dict xs)) = Ok (map xprop xs) /\ propertyType (norm (xs_dict xs)) = PObject.
Proof.
  intros xs F. pose proof (xs_nestable xs F) as N. assert (W : wsp []) by constructor. split; [|apply (k_type [] _ W N)].
  unfold xs_dict. rewrite (k_read [] _ W N), xpiece_props, xprop_norm. reflexivity.
Qed.

Lemma reads_in : forall xps xs x, Forall2 reads xps xs -> In x xs -> exists q, In q xps /\ reads q x.
Proof.
  intros xps xs x R. induction R as [|q y xps xs H R IH]; intros Hy; [destruct Hy|]. destruct Hy as [<-|Hy]; [exists q; split; [left; auto|auto]|].
  destruct (IH Hy) as (q' & H1 & H2). exists q'. split; [right; auto|auto].
Qed.
Lemma all_names : forall (P : bytes -> Z -> Prop) imgs nx, (forall x, In x nx -> P (xo_name x) (xo_obj x)) -> Forall2 (fun i x => xo_obj x = i) imgs nx ->
  Forall2 (fun i (nm : bytes * Z) => P (fst nm ++ itoa (snd nm)) i) imgs (map (fun x => (xo_char x, xo_index x)) nx).
Proof.
  intros P imgs nx All Pr. induction Pr as [|i x imgs nx Hi Pr IH]; [constructor|]. cbn [map]. constructor.
  - cbn [fst snd]. rewrite <- Hi. apply All. left. reflexivity.
  - apply IH. intros y Hy. apply All. right. auto.
Qed.

Lemma must_found : forall (vs : list (Z * bytes)) (A : Prop) (m m' : list (Z * bytes)), vs <> [] -> match vs with _ :: _ => m = m' | [] => A end -> m = m'.
Proof. intros [|v vs] A m m' H E; [congruence|exact E]. Qed.

Lemma parse_is : forall v xps, readProperties v = Ok xps -> xobjs_parse v = xobjs_of xps.
Proof. intros v xps R. unfold xobjs_parse. rewrite R. reflexivity. Qed.
Lemma greatest : forall xps, numbered_images xps -> last_greatest xps ->
  Forall wx (xobjs_of xps) /\ forall a x y, xobjs_of xps = a ++ [x] -> In y (xobjs_of xps) -> xo_index y <= xo_index x.
Proof.
  intros xps N G. pose proof (xobjs_reads xps N) as R.
  pose proof (fun y => reads_in xps (xobjs_of xps) y R) as In2.
  split; [apply Forall_forall; intros y Hy; destruct (In2 y Hy) as (q & _ & (_ & _ & W & _)); exact W|].
  intros a x y E Hy. destruct (In2 y Hy) as (q' & Hq' & (_ & _ & _ & Iq' & _)). rewrite E in R. apply Forall2_app_inv_r in R. destruct R as (b & c & Rb & Rc & Ep).
  inversion Rc as [|q ? ? ? Rq Rn' ]; subst. inversion Rn'; subst. destruct Rq as (_ & _ & _ & Iq & _). eapply (G b q q'); eauto.
Qed.

(** The images read from some dictionaries with numbered names. *)
Lemma scan_numbered : forall vals old ch idx, (forall k v, In (k, v) vals -> exists xps, readProperties v = Ok xps /\ numbered_images xps /\ last_greatest xps) ->
  scanXobjs vals [] (B"I") 0 = (old, ch, idx) ->
  Forall ltr ch /\ 0 <= idx /\ Forall wx old /\ (forall x, In x old -> xo_index x <= idx) /\ plain_name ch /\ Forall xnamed old /\
  forall k v, In (k, v) vals -> forall x, In x (xobjs_parse v) -> In x old.
Proof.
  intros vals old ch idx H S. destruct (scan_facts vals [] (B"I") 0 old ch idx) as (A1 & A2 & A3 & A4 & A5).
  - intros k v Hv. destruct (H k v Hv) as (xps & R & N & G). rewrite (parse_is v xps R). apply greatest; auto.
  - constructor; [unfold ltr; cbn; lia|constructor].
  - lia.
  - constructor.
  - intros x [].
  - exact S.
  - assert (No : Forall xnamed old).
    { apply Forall_forall. intros x Hx. apply A5 in Hx. destruct Hx as [[]|(k & v & Hv & Hx)]. destruct (H k v Hv) as (xps & R & N & _).
      rewrite (parse_is v xps R) in Hx. destruct (reads_in _ _ x (xobjs_reads xps N) Hx) as (q & _ & Hq). apply Hq. }
    split; [exact A1|]. split; [exact A2|]. split; [exact A3|]. split; [exact A4|]. split.
    + destruct (scan_char _ _ _ _ _ _ _ S) as (_ & [Ec|(x & Hx & Ec)]); rewrite Ec; [apply I_plain|]. apply char_plain. rewrite Forall_forall in No. auto.
    + split; [exact No|]. intros k v Hv x Hx. apply A5. right. eauto.
Qed.

(** A dictionary with the missing images added. *)
Lemma added_names : forall imgs old ch idx xps, Forall is_int imgs -> Forall ltr ch -> 0 <= idx -> Forall wx old -> (forall x, In x old -> xo_index x <= idx) ->
  plain_name ch -> Forall xnamed old -> numbered_images xps -> (forall x, In x (xobjs_of xps) -> In x old) ->
  let xs := addMissing (xobjs_of xps) (old ++ newXobjs imgs ch idx) in
  Forall xnamed xs /\ (forall k n, font_named xps k n -> font_named (map xprop xs) k n) /\
  Forall2 (fun i (nm : bytes * Z) => font_named (map xprop xs) (fst nm ++ itoa (snd nm)) i) imgs (map (fun x => (xo_char x, xo_index x)) (newXobjs imgs ch idx)).
Proof.
  intros imgs old ch idx xps Fi Lc Pi0 Wo Ml Pc No N Sub xs. pose proof (xobjs_reads xps N) as Rd.
  destruct (add_facts (old ++ newXobjs imgs ch idx) (xobjs_of xps)) as (b & E & Hb & Hx). fold xs in E, Hx.
  assert (Or : forall y, In y xs -> In y old \/ In y (newXobjs imgs ch idx)).
  { intros y Hy. rewrite E in Hy. apply in_app_or in Hy. destruct Hy as [Hy|Hy]; [left; auto|]. apply Hb in Hy. apply in_app_or in Hy. exact Hy. }
  split; [|split].
  - apply Forall_forall. intros x Hx0. destruct (Or x Hx0) as [H|H]; [rewrite Forall_forall in No; auto|].
    pose proof (xnew_named imgs ch idx Pc) as Nn. rewrite Forall_forall in Nn. auto.
  - intros k n H. rewrite E. apply (xkept xps); auto. intros x Hx0. destruct (reads_in _ _ x Rd Hx0) as (q & _ & (_ & Hq & _)). eapply read_range; eauto.
  - apply (all_names (font_named (map xprop xs))); [|apply newx_pairs]. intros x Hn. apply (xnew _ imgs ch idx); auto.
    + intros y Hy. destruct (Or y Hy) as [Hy'|Hy'].
      * split; [rewrite Forall_forall in Wo; auto|left; auto].
      * split; [|auto]. destruct (newx_char _ _ _ _ Hy') as (E1 & E2 & _). split; [rewrite E1; auto|lia].
    + apply Hx. apply in_or_app. auto.
    + destruct (newx_char _ _ _ _ Hn) as (_ & _ & Hi). rewrite Forall_forall in Fi. apply is_int_in. auto.
Qed.

(** The same page, seen with two kinds of entry in mind. *)
Lemma same_res : forall K1 K2 os id ps1 ps2 rp1 rp2, page_is K1 os id ps1 rp1 -> page_is K2 os id ps2 rp2 -> ps1 = ps2 /\
  match rp1, rp2 with NoRes, NoRes => True | ResIn r1 _, ResIn r2 _ => r1 = r2 | ResAt a1 r1 _, ResAt a2 r2 _ => a1 = a2 /\ r1 = r2 | _, _ => False end.
Proof.
  intros K1 K2 os id ps1 ps2 rp1 rp2 (D1 & P1) (D2 & P2). assert (ps1 = ps2) by (eapply dict_fun; eauto). subst ps2. split; [reflexivity|].
  assert (Q : forall v, once ps1 (B"Resources") v -> has_key ps1 (B"Resources")) by (intros v O'; eapply value_has, once_value; eauto).
  destruct rp1 as [|r1 f1|a1 r1 f1], rp2 as [|r2 f2|a2 r2 f2]; auto.
  - destruct P2 as (v & O' & _). apply P1. eauto.
  - destruct P2 as (v & O' & _). apply P1. eauto.
  - destruct P1 as (v & O' & _). apply P2. eauto.
  - destruct P1 as (v & O' & T & R & _), P2 as (w & Ow & T' & R' & _). assert (w = v) by (eapply once_in; eauto). subst. congruence.
  - destruct P1 as (v & O' & T & R & _), P2 as (w & Ow & I' & _). assert (w = v) by (eapply once_in; eauto). subst. apply type_ref in I'. congruence.
  - destruct P1 as (v & O' & _). apply P2. eauto.
  - destruct P1 as (v & O' & I' & _), P2 as (w & Ow & T & R & _). assert (w = v) by (eapply once_in; eauto). subst. apply type_ref in I'. congruence.
  - destruct P1 as (v & O' & I' & D & _), P2 as (w & Ow & I2 & D' & _). assert (w = v) by (eapply once_in; eauto). subst. assert (a1 = a2) by congruence. subst.
    split; [reflexivity|]. eapply dict_fun; eauto.
Qed.

(** A dictionary of a page is where it was if its resources have the same value
    for it and its object, if any, is the same. *)
Lemma still_there : forall K os os' id ps rp fps rps ps' v' rps', page_is K os id ps rp -> page_dict K os id fps ->
  match rp with ResIn r0 _ | ResAt _ r0 _ => r0 = rps | NoRes => True end ->
  dict os' id ps' -> value ps' (B"Resources") v' -> points os' v' rps' -> (forall w, value rps K w -> value rps' K w) ->
  (forall f, In f (font_objects rp) -> has_obj os' f = has_obj os f /\ data_of os' f = data_of os f) -> page_dict K os' id fps.
Proof.
  intros K os os' id ps rp fps rps ps' v' rps' P Pd Er D' V' Pt Kv Kf. apply (page_place _ _ _ _ _ _ P) in Pd. destruct P as (D & P).
  assert (H : exists fp, font_is K os rps fp /\ match fp with NoFont => False | FontIn f => f = fps | FontAt a f => f = fps /\ In a (font_objects rp) end).
  { destruct rp as [|r0 fp|r r0 fp]; [discriminate| |]; subst r0; exists fp.
    - destruct P as (v & _ & _ & _ & F). split; [exact F|]. destruct fp as [|f0|f f0]; cbn in Pd; inversion Pd; subst; auto. split; [auto|]. left. auto.
    - destruct P as (v & _ & _ & _ & F). split; [exact F|]. destruct fp as [|f0|f f0]; cbn in Pd; inversion Pd; subst; auto. split; [auto|]. left. auto. }
  destruct H as (fp & F & E). destruct fp as [|f0|f f0]; [contradiction| |]; cbn [font_is] in F.
  - subst f0. destruct F as (w & Al & T & R). exists ps', v', rps', w. split; [auto|]. split; [auto|]. split; [auto|]. split; [apply Kv, alike_value; auto|]. left. auto.
  - destruct E as (-> & Hf). destruct F as (w & Ow & I' & Df). destruct (Kf f Hf) as (H1 & H2). exists ps', v', rps', w. split; [auto|]. split; [auto|]. split; [auto|].
    split; [apply Kv, once_value; auto|]. right. exists f. split; [auto|]. apply (same_dict os); auto.
Qed.

Section Run.
  Variable ord : morder.
  Variable p p' : pdf.
  Variable imgs : list Z.
  Variable names : list (bytes * Z).
  Variable rid : Z.
  Variable ts : list tree.
  Variable info : Z -> res_place.
  Hypothesis Fr : fair ord.
  Notation lv := (@InjectPages.lv XO).
  Notation RF := (@RF XO).
  Notation kpath := (@kpath XO).
  Hypothesis T : tidy XO p rid ts info.
  Hypothesis Top : bare_top p rid.
  Variables (rsRes cw1 cw : results) (rx : Z) (embed : bool) (vals : list (Z * bytes)) (old : list xobj) (ch : bytes) (idx : Z) (must : list (Z * bytes)).
  Hypothesis Rn : iran ord p p' imgs names rsRes cw1 cw rx embed vals old ch idx must.
  Notation ids := (flat_map leaves ts).
  Notation new := (newXobjs imgs ch idx).

  Lemma x_head : forall L, vis L (lv info L) = true.
  Proof. intros L. unfold InjectPages.lv. cbn [vis existsb fst]. rewrite Z.eqb_refl. reflexivity. Qed.
  Lemma x_res : forall L r rps fp, info L = ResAt r rps fp -> vis r (lv info L) = true.
  Proof. intros L r rps fp EL. unfold InjectPages.lv. rewrite EL. cbn [pv vis existsb fst]. rewrite Z.eqb_refl. cbn [orb]. apply orb_true_r. Qed.

  Lemma first_is : exists L, In L ids /\ match info L with NoRes => False | ResIn _ _ => rx = L /\ embed = true | ResAt r _ _ => rx = r /\ embed = false end.
  Proof. apply (first_page p rid ts info T Top ord [11] rsRes rx embed Fr); [apply (ir_res _ _ _ _ _ _ _ _ _ _ _ _ _ _ _ Rn)|apply (ir_first _ _ _ _ _ _ _ _ _ _ _ _ _ _ _ Rn)]. Qed.

  Lemma must_data : NoDup (map fst must) -> (forall j, has_obj (objs p') j = has_obj (objs p) j) /\
    forall j, data_of (objs p') j = match map_get must j with Some s => dictwrap s | None => data_of (objs p) j end.
  Proof.
    intros N. destruct (replaceAll_data dictwrap (ord [16] _ must) (objs p) (objs p') (td_unique _ _ _ _ T) (fair_nodup _ _ _ _ Fr N) (ir_objs _ _ _ _ _ _ _ _ _ _ _ _ _ _ _ Rn)) as (_ & H & D).
    split; [exact H|]. intros j. rewrite D, fair_get by auto. reflexivity.
  Qed.

  (** Other dictionaries of the pages. *)
  Variable K2 : bytes.
  Variable info2 : Z -> res_place.
  Hypothesis T2 : tidy K2 p rid ts info2.
  Hypothesis Ne2 : K2 <> XO.

  Lemma font_apart : forall L f, In L ids -> In f (font_objects (info2 L)) -> ~ In f (root p :: rid :: flat_map tree_ids ts) /\ forall L', In L' ids -> ~ In f (res_objects (info L')).
  Proof.
    intros L f HL Hf. split; [apply (td_apart _ _ _ _ T2 L f f L HL HL); auto|]. intros L' HL'. destruct (td_apart _ _ _ _ T2 L f f L' HL HL') as (_ & A).
    destruct (A Hf) as (_ & A'). intros H. apply A'. destruct (page_of _ _ _ _ T L' HL') as (ps & P & _). destruct (page_of _ _ _ _ T2 L' HL') as (ps2 & P2 & _).
    destruct (same_res _ _ _ _ _ _ _ _ P P2) as (_ & S). destruct (info L'), (info2 L'); try contradiction. destruct S as (-> & _). exact H.
  Qed.

  (** The crawl through image dictionaries, where it takes place. *)
  Lemma third : xobjectVals cw1 = [] -> stage (objs p) (root p) kpath (map fst (crawl_from (objs p) (root p) (B"Pages" :: kpath))) cw.
  Proof.
    intros E. pose proof (ir_cw _ _ _ _ _ _ _ _ _ _ _ _ _ _ _ Rn) as C. rewrite E in C.
    destruct (page_crawl ord [13] (objs p) (root p) kpath Fr (tidy_smooth _ _ _ _ T)) as (m & Em & St). change kpath with [B"Kids"; B"Resources"; XO] in Em.
    rewrite C in Em. inversion Em; subst m. exact St.
  Qed.

  Section Third.
  Hypothesis St : stage (objs p) (root p) kpath (map fst (crawl_from (objs p) (root p) (B"Pages" :: kpath))) cw.

  Lemma leaf_val : forall L l, In L ids -> map_get cw L = Some l ->
    valOf XO l = match info L with ResIn rps _ => option_map pval (getPropByKey XO rps) | _ => None end.
  Proof.
    intros L l HL G. rewrite (leaf_items _ _ _ _ T cw St L l HL G). destruct (page_of _ _ _ _ T L HL) as (ps & P & NF & _).
    destruct (page_all _ _ _ _ P) as (_ & _ & _ & E). apply key_none in NF.
    destruct (info L) as [|rps fp|r rps fp]; [rewrite E, valOf_strs, NF; reflexivity| |rewrite E, valOf_strs, NF; reflexivity].
    destruct E as (a & v & b & Ep & _ & E). rewrite E.
    subst ps. rewrite get_app in NF. rewrite valOf_skip, valOf_cr, valOf_strs; [reflexivity|]. destruct (getPropByKey XO a); congruence.
  Qed.

  (** Where image dictionaries are found. *)
  Lemma val_cases : forall k l v, map_get cw k = Some l -> valOf XO l = Some v ->
    (exists rps fp, In k ids /\ info k = ResIn rps fp /\ fp <> NoFont /\ value rps XO v /\ font_is XO (objs p) rps fp) \/
    (exists L rps fp, In L ids /\ info L = ResAt k rps fp /\ fp <> NoFont /\ value rps XO v).
  Proof.
    intros k l v G V. pose proof (st_sound _ _ _ _ _ St _ _ G) as Sk. destruct (seen_is _ _ _ _ T _ _ Sk) as (C & X & n & HC & _ & K & En & E).
    assert (Nf : forall rps fp, font_is XO (objs p) rps fp -> option_map pval (getPropByKey XO rps) = Some v -> fp <> NoFont /\ value rps XO v).
    { intros rps fp F Ev. split.
      - intros ->. cbn [font_is] in F. apply key_none in F. rewrite F in Ev. discriminate.
      - destruct (getPropByKey XO rps) as [q|] eqn:Gq; [|discriminate]. cbn in Ev. inversion Ev; subst. apply (get_value rps XO q Gq). }
    destruct K as [k ps Hn R NF|L HL|L r rps fp HL Ei|f Hf].
    - exfalso. subst l. apply key_none in NF. rewrite valOf_copies, NF in V. discriminate.
    - left. rewrite (leaf_val L l HL G) in V. destruct (info L) as [|rps fp|r rps fp] eqn:EL; try discriminate. destruct (page_of _ _ _ _ T L HL) as (ps & (_ & P) & _).
      rewrite EL in P. destruct P as (w & _ & _ & _ & F). destruct (Nf rps fp F V). exists rps, fp. auto.
    - right. subst l. rewrite valOf_copies in V. destruct (res_of _ _ _ _ T _ _ _ _ HL Ei) as (_ & _ & F & _). destruct (Nf rps fp F V). exists L, rps, fp. auto.
    - exfalso. subst l. rewrite copies_nil in V. discriminate.
  Qed.
  End Third.

  (** ** Image dictionaries in the pages *)
  Section Inside.
    Hypothesis In1 : images_inside ids info.
    Hypothesis Num : forall L rps xps, In L ids -> info L = ResIn rps (FontIn xps) -> numbered_images xps /\ last_greatest xps.

    Lemma inside_first : xobjectVals cw1 = [].
    Proof.
      destruct first_is as (L & HL & C). pose proof (In1 L HL) as I1. pose proof (ir_cw1 _ _ _ _ _ _ _ _ _ _ _ _ _ _ _ Rn) as E1.
      destruct (page_of _ _ _ _ T L HL) as (ps & (D & P) & _). apply dict_data in D. destruct D as (Ho & R).
      destruct (info L) as [|rps fp|r rps fp] eqn:EL; [destruct C| |]; destruct C as (-> & _).
      - destruct (second_page p rid ts info T L ps rps fp HL EL R) as (E2 & N2). rewrite E2 in E1. inversion E1. cbn [xobjectVals flat_map fst snd]. rewrite valOf_strs, N2. reflexivity.
      - destruct fp as [|f0|f f0]; try contradiction. rewrite (second_res p rid ts info T L r rps NoFont HL EL eq_refl) in E1. inversion E1.
        cbn [xobjectVals flat_map fst snd]. rewrite valOf_strs. destruct P as (v & _ & _ & _ & F). cbn [font_is] in F. apply key_none in F. rewrite F. reflexivity.
    Qed.
    Let St := third inside_first.

    Lemma inside_val : forall k v, In (k, v) (ord [14] _ vals) ->
      exists rps xps, In k ids /\ info k = ResIn rps (FontIn xps) /\ readProperties v = Ok xps.
    Proof.
      intros k v H. apply fair_in in H; [|exact Fr]. rewrite (ir_vals _ _ _ _ _ _ _ _ _ _ _ _ _ _ _ Rn) in H. apply vals_in in H. destruct H as (l & H & V).
      apply in_get in H; [|apply (st_nodup _ _ _ _ _ St)]. destruct (val_cases St k l v H V) as [(rps & fp & HL & E & Nf & Vl & F)|(L & rps & fp & HL & E & Nf & _)].
      - pose proof (In1 k HL) as I1. rewrite E in I1. destruct fp as [|xps|f f0]; [congruence| |contradiction]. exists rps, xps. split; [auto|]. split; [auto|].
        destruct F as (w & Al & _ & R). assert (w = v) by (eapply value_fun; eauto using alike_value). subst. exact R.
      - exfalso. pose proof (In1 L HL) as I1. rewrite E in I1. destruct fp; contradiction || congruence.
    Qed.

    Lemma inside_scan : Forall ltr ch /\ 0 <= idx /\ Forall wx old /\ (forall x, In x old -> xo_index x <= idx) /\ plain_name ch /\ Forall xnamed old /\
      forall k v, In (k, v) (ord [14] _ vals) -> forall x, In x (xobjs_parse v) -> In x old.
    Proof.
      apply scan_numbered; [|apply (ir_scan _ _ _ _ _ _ _ _ _ _ _ _ _ _ _ Rn)]. intros k v H. destruct (inside_val k v H) as (rps & xps & HL & E & R).
      destruct (Num k rps xps HL E). exists xps. auto.
    Qed.

    Lemma inside_old : forall L rps xps, In L ids -> info L = ResIn rps (FontIn xps) -> forall x, In x (xobjs_of xps) -> In x old.
    Proof.
      intros L rps xps HL EL x Hx. destruct (leaf_found _ _ _ _ T cw St L L HL (x_head L)) as (l & G). pose proof (leaf_val St L l HL G) as Vl. rewrite EL in Vl.
      destruct (page_of _ _ _ _ T L HL) as (ps & (_ & P2) & _). rewrite EL in P2. destruct P2 as (v' & _ & _ & _ & (xv & Al & Tx & Rx)).
      pose proof (alike_value _ _ _ Al) as Vx. apply value_get in Vx. rewrite Vx in Vl. cbn [option_map pval] in Vl.
      destruct inside_scan as (_ & _ & _ & _ & _ & _ & Hs). rewrite <- (parse_is xv xps Rx) in Hx. apply (Hs L xv); [|exact Hx]. apply fair_in; [exact Fr|].
      rewrite (ir_vals _ _ _ _ _ _ _ _ _ _ _ _ _ _ _ Rn). apply vals_in. exists l. split; [apply get_in; exact G|exact Vl].
    Qed.
    Lemma inside_good : forall L rps xps ps, In L ids -> info L = ResIn rps (FontIn xps) ->
      dict (objs p) L ps -> good ps -> Forall seen_value ps -> good rps -> Forall seen_value rps -> Forall nests rps ->
      Forall xnamed (addMissing (xobjs_of xps) (old ++ new)) ->
      exists w x, dict (objs p') L (setPropByKey (B"Resources") w ps) /\ has_key ps (B"Resources") /\ propertyType w = PObject /\
        readProperties w = Ok (setPropByKey XO x rps) /\ has_key rps XO /\ propertyType x = PObject /\
        readProperties x = Ok (map xprop (addMissing (xobjs_of xps) (old ++ new))).
    Proof.
      intros L rps xps ps1 HL EL D1 Gp Sv Gr Srps Ne Nx. destruct (leaf_found _ _ _ _ T cw St L L HL (x_head L)) as (l & G). pose proof (leaf_val St L l HL G) as Vl. rewrite EL in Vl.
      destruct (page_of _ _ _ _ T L HL) as (ps & P & NF & _). pose proof P as (D & P2). pose proof (page_all _ _ _ _ P) as (_ & _ & _ & Im).
      assert (ps1 = ps) by (apply (dict_fun (objs p) L); auto). subst ps1.
      pose proof (leaf_items _ _ _ _ T cw St L l HL G) as El. rewrite EL in P2, Im.
      destruct P2 as (v & O' & Tv & Rp & F). destruct F as (xv & Al & Tx & Rx).
      pose proof (alike_value _ _ _ Al) as Vx. apply value_get in Vx. rewrite Vx in Vl. cbn [option_map pval] in Vl.
      assert (Hv : In (L, xv) (xobjectVals cw)) by (apply vals_in; exists l; split; [apply get_in; exact G|exact Vl]).
      pose proof (ir_must _ _ _ _ _ _ _ _ _ _ _ _ _ _ _ Rn) as M. pose proof (ir_vals _ _ _ _ _ _ _ _ _ _ _ _ _ _ _ Rn) as Ev.
      rewrite <- Ev in Hv. apply must_found in M; [|intros E0; rewrite E0 in Hv; destruct Hv].
      destruct (found_get (old ++ new) cw (st_nodup _ _ _ _ _ St)) as (Nm & Gm). rewrite <- M in Nm, Gm. destruct (must_data Nm) as (Ho & Da).
      specialize (Da L). rewrite Gm, G in Da. unfold found_text in Da. rewrite Vl, (parse_is xv xps Rx) in Da.
      set (xs := addMissing (xobjs_of xps) (old ++ new)) in *.
      destruct Im as (a & v1 & b & Ep & Na & Im). rewrite Im in El.
      assert (PI : kpage_items XO ps rps l).
      { exists a, (mkProp (B"Resources") v1), b. split; [auto|]. split; [reflexivity|]. split; [auto|]. split; [|exact El].
        apply key_none in NF. rewrite Ep, get_app in NF. destruct (getPropByKey XO a); congruence. }
      assert (W0 : wsp []) by constructor.
      destruct (k_page XO [] (map xpiece xs) W0 (xs_nestable xs Nx) ps rps l PI Gp Sv Gr Srps Ne) as (lead & Y & Wl & NY & EY & R1).
      rewrite xs_value in Da. change (dtext [] (map xpiece xs)) with (xs_dict xs) in EY, R1. destruct (xs_read xs Nx) as (R3 & T3).
      exists (norm (dtext lead Y)), (norm (xs_dict xs)).
      split; [apply dict_data; rewrite Ho, Da; split; [apply dict_data in D; apply D|exact R1]|].
      split; [eapply value_has, once_value; eauto|]. split; [apply (k_type lead Y Wl NY)|]. split; [rewrite (k_read lead Y Wl NY), EY; reflexivity|].
      split; [apply Al|]. auto.
    Qed.
    Lemma writable_good : forall L rps xps, In L ids -> info L = ResIn rps (FontIn xps) -> writable_page (objs p) ids info L ->
      exists ps, dict (objs p) L ps /\ good ps /\ Forall seen_value ps /\ good rps /\ Forall seen_value rps /\ Forall nests rps.
    Proof.
      intros L rps xps HL EL Wp. destruct (page_of _ _ _ _ T L HL) as (ps & (D & P2) & _). unfold writable_page in Wp. rewrite EL in Wp, P2.
      destruct Wp as ((o & ps0 & v & V & En & Rw & Sv & O' & Rv) & Srps & Emb & Reg). destruct P2 as (v' & O'' & Tv & Rp & F).
      assert (ps0 = ps) by (apply (dict_fun (objs p) L); auto; exists o; auto). subst ps0.
      assert (v' = v) by (eapply once_in; eauto). subst v'. exists ps. split; [exact D|]. split; [eapply rewritable_good; eauto|]. split; [exact Sv|].
      split; [apply (rewritable_good (mkObj 0 v)); auto|]. split; [exact Srps|]. eapply Forall_impl; [|exact Emb]; apply embeds.
    Qed.
    Lemma inside_dict : forall L rps xps, In L ids -> info L = ResIn rps (FontIn xps) -> writable_page (objs p) ids info L ->
      Forall xnamed (addMissing (xobjs_of xps) (old ++ new)) ->
      exists ps w x, dict (objs p) L ps /\ dict (objs p') L (setPropByKey (B"Resources") w ps) /\ has_key ps (B"Resources") /\ propertyType w = PObject /\
        readProperties w = Ok (setPropByKey XO x rps) /\ has_key rps XO /\ propertyType x = PObject /\
        readProperties x = Ok (map xprop (addMissing (xobjs_of xps) (old ++ new))).
    Proof.
      intros L rps xps HL EL Wp Nx. destruct (writable_good L rps xps HL EL Wp) as (ps & D & Gp & Sv & Gr & Sr & Ne).
      destruct (inside_good L rps xps ps HL EL D Gp Sv Gr Sr Ne Nx) as (w & x & H). exists ps, w, x. auto.
    Qed.

    Theorem inside_after : Forall is_int imgs -> forall L xps, In L ids -> page_images (objs p) L xps -> writable_page (objs p) ids info L ->
      exists xps', page_images (objs p') L xps' /\ (forall k n, font_named xps k n -> font_named xps' k n) /\
        Forall2 (fun i nm => font_named xps' (fst nm ++ itoa (snd nm)) i) imgs names.
    Proof.
      intros Fi L xps HL Pi Wp. destruct (page_of _ _ _ _ T L HL) as (ps & P & _). apply (page_place _ _ _ _ _ _ P) in Pi. pose proof (In1 L HL) as I1.
      destruct (info L) as [|rps fp|r rps fp] eqn:EL; [discriminate| |destruct fp; [discriminate|contradiction|contradiction]].
      destruct fp as [|x0|f f0]; [discriminate| |contradiction]. cbn [place_fonts] in Pi. inversion Pi; subst x0.
      destruct (Num L rps xps HL EL) as (N & Gr). destruct inside_scan as (Lc & Pi0 & Wo & Ml & Pc & No & _).
      destruct (added_names imgs old ch idx xps Fi Lc Pi0 Wo Ml Pc No N (inside_old L rps xps HL EL)) as (Nx & Ko & Kn).
      exists (map xprop (addMissing (xobjs_of xps) (old ++ new))). split; [|split; [exact Ko|]].
      { destruct (inside_dict L rps xps HL EL Wp Nx) as (ps1 & w & x & _ & D' & Kr & Tw & Rw & Kx & Tx & Rx).
        exists (setPropByKey (B"Resources") w ps1), w, (setPropByKey XO x rps), x. split; [exact D'|]. split; [apply value_set_same; auto|]. split; [left; auto|].
        split; [apply value_set_same; auto|]. left. auto. }
      rewrite (ir_names _ _ _ _ _ _ _ _ _ _ _ _ _ _ _ Rn). exact Kn.
    Qed.

    (** Only pages with images in them are written anew. *)
    Lemma inside_must : (exists L rps xps, In L ids /\ info L = ResIn rps (FontIn xps)) ->
      NoDup (map fst must) /\ forall j, (forall rps xps, In j ids -> info j <> ResIn rps (FontIn xps)) -> map_get must j = None.
    Proof.
      intros (L & rps & xps & HL & EL). pose proof (ir_must _ _ _ _ _ _ _ _ _ _ _ _ _ _ _ Rn) as M. pose proof (ir_vals _ _ _ _ _ _ _ _ _ _ _ _ _ _ _ Rn) as Ev.
      destruct (leaf_found _ _ _ _ T cw St L L HL (x_head L)) as (l & G). pose proof (leaf_val St L l HL G) as Vl. rewrite EL in Vl.
      destruct (page_of _ _ _ _ T L HL) as (ps & (_ & P2) & _). rewrite EL in P2. destruct P2 as (v' & _ & _ & _ & (xv & Al & Tx & Rx)).
      pose proof (alike_value _ _ _ Al) as Vx. apply value_get in Vx. rewrite Vx in Vl. cbn [option_map pval] in Vl.
      apply must_found in M; [|intros E0; rewrite Ev in E0; assert (H : In (L, xv) (xobjectVals cw)) by (apply vals_in; exists l; split; [apply get_in; exact G|exact Vl]); rewrite E0 in H; destruct H].
      destruct (found_get (old ++ new) cw (st_nodup _ _ _ _ _ St)) as (Nm & Gm). rewrite <- M in Nm, Gm. split; [exact Nm|]. intros j Hj. rewrite Gm.
      destruct (map_get cw j) as [l0|] eqn:G0; [|reflexivity]. unfold found_text. destruct (valOf XO l0) as [v|] eqn:V; [|reflexivity]. exfalso.
      destruct (inside_val j v) as (rps0 & xps0 & H1 & H2 & _).
      - apply fair_in; [exact Fr|]. rewrite Ev. apply vals_in. exists l0. split; [apply get_in; exact G0|exact V].
      - exact (Hj rps0 xps0 H1 H2).
    Qed.

    Lemma inside_same : (exists L rps xps, In L ids /\ info L = ResIn rps (FontIn xps)) ->
      forall j, (forall rps xps, In j ids -> info j <> ResIn rps (FontIn xps)) -> has_obj (objs p') j = has_obj (objs p) j /\ data_of (objs p') j = data_of (objs p) j.
    Proof.
      intros Ex j Hj. destruct (inside_must Ex) as (Nm & Gm). destruct (must_data Nm) as (Ho & Da). split; [apply Ho|]. rewrite Da, Gm by exact Hj. reflexivity.
    Qed.

    Theorem inside_kept : Forall is_int imgs -> (exists L rps xps, In L ids /\ info L = ResIn rps (FontIn xps)) ->
      forall L fps, In L ids -> (forall rps xps, info L = ResIn rps (FontIn xps) -> writable_page (objs p) ids info L) ->
      page_dict K2 (objs p) L fps -> page_dict K2 (objs p') L fps.
    Proof.
      intros Fi Ex L fps HL Wp Pd. destruct (page_of _ _ _ _ T L HL) as (ps & P & _). destruct (page_of _ _ _ _ T2 L HL) as (ps2 & P2 & _).
      destruct (same_res _ _ _ _ _ _ _ _ P P2) as (<- & Sr). destruct (inside_must Ex) as (Nm & Gm). destruct (must_data Nm) as (Ho & Da).
      assert (Same : forall j, (forall rps xps, In j ids -> info j <> ResIn rps (FontIn xps)) -> has_obj (objs p') j = has_obj (objs p) j /\ data_of (objs p') j = data_of (objs p) j).
      { intros j Hj. split; [apply Ho|]. rewrite Da, Gm by exact Hj. reflexivity. }
      assert (Tree : forall j, ~ In j (root p :: rid :: flat_map tree_ids ts) -> has_obj (objs p') j = has_obj (objs p) j /\ data_of (objs p') j = data_of (objs p) j).
      { intros j Hj. apply Same. intros rps xps Hl. exfalso. apply Hj. apply (leaf_in' _ _ _ _ T). exact Hl. }
      assert (Kf : forall f, In f (font_objects (info2 L)) -> has_obj (objs p') f = has_obj (objs p) f /\ data_of (objs p') f = data_of (objs p) f).
      { intros f Hf. apply Tree. apply (font_apart L f HL Hf). }
      assert (Stay : forall rps fp, (info L = ResIn rps fp \/ exists r, info L = ResAt r rps fp) -> (forall r0 x0, info L <> ResIn r0 (FontIn x0)) -> page_dict K2 (objs p') L fps).
      { intros rps fp E Hn. destruct (Same L) as (H1 & H2); [intros rps0 xps0 _; apply Hn|]. destruct P as (D & P). destruct E as [E|(r & E)]; rewrite E in P, Sr.
        - destruct P as (v & O' & Tv & R & _). apply (still_there K2 (objs p) (objs p') L ps (info2 L) fps rps ps v rps); auto.
          + destruct (info2 L); [auto|auto|contradiction].
          + apply (same_dict (objs p)); auto.
          + apply once_value. auto.
          + left. auto.
        - destruct P as (v & O' & Iv & Dr & _). apply (still_there K2 (objs p) (objs p') L ps (info2 L) fps rps ps v rps); auto.
          + destruct (info2 L); [auto|contradiction|]. symmetry. apply Sr.
          + apply (same_dict (objs p)); auto.
          + apply once_value. auto.
          + right. exists r. split; [auto|]. destruct (Tree r) as (H3 & H4); [|apply (same_dict (objs p)); auto].
            apply (R_tree _ _ _ _ T). exists L. split; [auto|]. rewrite E. left. auto. }
      destruct (info L) as [|rps fp|r rps fp] eqn:EL.
      - exfalso. apply (page_place _ _ _ _ _ _ P2) in Pd. destruct (info2 L); [discriminate|contradiction|contradiction].
      - destruct fp as [|xps|f f0]; [apply (Stay rps NoFont); [auto|discriminate]| |apply (Stay rps (FontAt f f0)); [auto|discriminate]].
        destruct (Num L rps xps HL EL) as (N & Gr). destruct inside_scan as (Lc & Pi0 & Wo & Ml & Pc & No & _).
        destruct (added_names imgs old ch idx xps Fi Lc Pi0 Wo Ml Pc No N (inside_old L rps xps HL EL)) as (Nx & _ & _).
        destruct (inside_dict L rps xps HL EL (Wp rps xps eq_refl) Nx) as (ps1 & w & x & D1 & D' & Kr & Tw & Rw & _).
        apply (still_there K2 (objs p) (objs p') L ps (info2 L) fps rps (setPropByKey (B"Resources") w ps1) w (setPropByKey XO x rps)); auto.
        + destruct (info2 L); [auto|auto|contradiction].
        + apply value_set_same. auto.
        + left. auto.
        + intros u Vu. apply value_set_other; auto.
      - apply (Stay rps fp); [eauto|discriminate].
    Qed.
  End Inside.

  (** ** An image dictionary in the resource object of all pages *)
  Section Shared.
    Variables (r : Z) (rps xps : list prop).
    Hypothesis Sh : images_shared ids info r rps xps.
    Hypothesis Num : numbered_images xps /\ last_greatest xps.

    Lemma shared_first : rx = r /\ cw1 = [(r, strs rps)] /\ exists xv, alike rps XO xv /\ propertyType xv = PObject /\ readProperties xv = Ok xps.
    Proof.
      destruct first_is as (L & HL & C). pose proof (ir_cw1 _ _ _ _ _ _ _ _ _ _ _ _ _ _ _ Rn) as E1.
      destruct (Sh L HL) as [EL|EL]; rewrite EL in C; [destruct C|]. destruct C as (-> & _). rewrite (second_res p rid ts info T L r rps _ HL EL eq_refl) in E1.
      destruct (res_of _ _ _ _ T L r rps _ HL EL) as (_ & _ & F & _). split; [reflexivity|]. split; [congruence|exact F].
    Qed.

    Lemma shared_must : exists xv, alike rps XO xv /\ readProperties xv = Ok xps /\ vals = [(r, xv)] /\ must = imgReplacesFound (old ++ new) [(r, strs rps)].
    Proof.
      destruct shared_first as (_ & E1 & xv & Al & _ & R). pose proof (alike_value _ _ _ Al) as Vx. apply value_get in Vx.
      assert (E2 : xobjectVals cw1 = [(r, xv)]) by (rewrite E1; cbn [xobjectVals flat_map fst snd]; rewrite valOf_strs, Vx; reflexivity).
      pose proof (ir_cw _ _ _ _ _ _ _ _ _ _ _ _ _ _ _ Rn) as C. rewrite E2 in C.
      pose proof (ir_vals _ _ _ _ _ _ _ _ _ _ _ _ _ _ _ Rn) as Ev. rewrite C, E2 in Ev.
      pose proof (ir_must _ _ _ _ _ _ _ _ _ _ _ _ _ _ _ Rn) as M. apply must_found in M; [|rewrite Ev; discriminate]. rewrite C, E1 in M.
      exists xv. auto.
    Qed.

    Lemma shared_scan : Forall ltr ch /\ 0 <= idx /\ Forall wx old /\ (forall x, In x old -> xo_index x <= idx) /\ plain_name ch /\ Forall xnamed old /\
      forall x, In x (xobjs_of xps) -> In x old.
    Proof.
      destruct shared_must as (xv & _ & R & Ev & _). destruct (scan_numbered (ord [14] _ vals) old ch idx) as (A1 & A2 & A3 & A4 & A5 & A6 & A7).
      - intros k v H. apply fair_in in H; [|exact Fr]. rewrite Ev in H. destruct H as [H|[]]. inversion H; subst. exists xps. destruct Num. auto.
      - apply (ir_scan _ _ _ _ _ _ _ _ _ _ _ _ _ _ _ Rn).
      - split; [exact A1|]. split; [exact A2|]. split; [exact A3|]. split; [exact A4|]. split; [exact A5|]. split; [exact A6|]. intros x Hx.
        rewrite <- (parse_is xv xps R) in Hx. apply (A7 r xv); [|exact Hx]. apply fair_in; [exact Fr|]. rewrite Ev. left. reflexivity.
    Qed.

    Lemma shared_good : Forall is_int imgs -> dict (objs p) r rps -> good rps -> Forall seen_value rps -> exists x,
      dict (objs p') r (setPropByKey XO x rps) /\ has_key rps XO /\ propertyType x = PObject /\
      readProperties x = Ok (map xprop (addMissing (xobjs_of xps) (old ++ new))) /\
      forall j, j <> r -> has_obj (objs p') j = has_obj (objs p) j /\ data_of (objs p') j = data_of (objs p) j.
    Proof.
      intros Fi Dr G Sv. destruct shared_must as (xv & Al & R & Ev & M). destruct shared_scan as (Lc & Pi0 & Wo & Ml & Pc & No & Sub). destruct Num as (N & _).
      destruct (added_names imgs old ch idx xps Fi Lc Pi0 Wo Ml Pc No N Sub) as (Nx & Ko & Kn). set (xs := addMissing (xobjs_of xps) (old ++ new)) in *.
      assert (N1 : NoDup (map fst [(r, strs rps)])) by (constructor; [intros []|constructor]).
      destruct (found_get (old ++ new) [(r, strs rps)] N1) as (Nm & Gm). rewrite <- M in Nm, Gm. destruct (must_data Nm) as (Ho & Da).
      pose proof (Da r) as Dar. rewrite Gm in Dar. cbn [map_get] in Dar. rewrite Z.eqb_refl in Dar. unfold found_text in Dar. pose proof Al as Al'. apply alike_value, value_get in Al'.
      rewrite valOf_strs, Al' in Dar. cbn [option_map pval] in Dar. rewrite (parse_is xv xps R) in Dar. fold xs in Dar. rewrite xs_value in Dar.
      assert (W0 : wsp []) by constructor. pose proof (k_text XO [] (map xpiece xs) W0 (xs_nestable xs Nx) rps G Sv) as Rt. change (dtext [] (map xpiece xs)) with (xs_dict xs) in Rt.
      destruct (xs_read xs Nx) as (R3 & T3). exists (norm (xs_dict xs)). split; [apply dict_data; rewrite Ho, Dar; split; [apply dict_data in Dr; apply Dr|exact Rt]|].
      split; [apply Al|]. split; [auto|]. split; [auto|]. intros j Hj. split; [apply Ho|]. rewrite Da, Gm. cbn [map_get]. destruct (Z.eqb_spec j r); [congruence|reflexivity].
    Qed.

    Lemma shared_res : Forall is_int imgs -> writable_object (objs p) r rps -> exists x,
      dict (objs p') r (setPropByKey XO x rps) /\ has_key rps XO /\ propertyType x = PObject /\
      readProperties x = Ok (map xprop (addMissing (xobjs_of xps) (old ++ new))) /\
      forall j, j <> r -> has_obj (objs p') j = has_obj (objs p) j /\ data_of (objs p') j = data_of (objs p) j.
    Proof.
      intros Fi ((o & V & Rw) & Dr & Sv). apply shared_good; auto.
      destruct Dr as (o' & V' & En). assert (o' = o) by (apply version_get in V, V'; congruence). subst o'. eapply rewritable_good; eauto.
    Qed.

    Theorem shared_after : Forall is_int imgs -> writable_object (objs p) r rps -> exists xps',
      (forall k n, font_named xps k n -> font_named xps' k n) /\ Forall2 (fun i nm => font_named xps' (fst nm ++ itoa (snd nm)) i) imgs names /\
      forall L, In L ids -> info L <> NoRes -> page_images (objs p') L xps'.
    Proof.
      intros Fi Wr. destruct shared_scan as (Lc & Pi0 & Wo & Ml & Pc & No & Sub). destruct Num as (N & _).
      destruct (added_names imgs old ch idx xps Fi Lc Pi0 Wo Ml Pc No N Sub) as (Nx & Ko & Kn). destruct (shared_res Fi Wr) as (x & Dr & Hk & Tx & Rx & Same).
      exists (map xprop (addMissing (xobjs_of xps) (old ++ new))). split; [exact Ko|]. split; [rewrite (ir_names _ _ _ _ _ _ _ _ _ _ _ _ _ _ _ Rn); exact Kn|]. intros L HL EL.
      destruct (Sh L HL) as [E|E]; [congruence|]. destruct (page_of _ _ _ _ T L HL) as (ps & (D & P2) & _). rewrite E in P2. destruct P2 as (v & Ov & Iv & _ & _).
      exists ps, v, (setPropByKey XO x rps), x. split; [|split; [|split; [|split]]].
      - destruct (Same L) as (H1 & H2); [|apply (same_dict (objs p)); auto]. intros ->. apply (R_tree _ _ _ _ T r); [exists r; split; [auto|rewrite E; left; auto]|]. apply (leaf_in' _ _ _ _ T). auto.
      - apply once_value. auto.
      - right. exists r. auto.
      - apply value_set_same. exact Hk.
      - left. auto.
    Qed.

    Theorem shared_kept : Forall is_int imgs -> writable_object (objs p) r rps -> forall L fps, In L ids -> page_dict K2 (objs p) L fps -> page_dict K2 (objs p') L fps.
    Proof.
      intros Fi Wr L fps HL Pd. destruct (page_of _ _ _ _ T L HL) as (ps & P & _). destruct (page_of _ _ _ _ T2 L HL) as (ps2 & P2 & _).
      destruct (same_res _ _ _ _ _ _ _ _ P P2) as (<- & Sr).
      destruct (shared_res Fi Wr) as (x & Dr & _ & _ & _ & Same). destruct (Sh L HL) as [E|E]; rewrite E in Sr.
      { exfalso. apply (page_place _ _ _ _ _ _ P2) in Pd. destruct (info2 L); [discriminate|contradiction|contradiction]. }
      destruct P as (D & P). rewrite E in P. destruct P as (v & Ov & Iv & _ & _).
      apply (still_there K2 (objs p) (objs p') L ps (info2 L) fps rps ps v (setPropByKey XO x rps)); auto.
      - destruct (info2 L); [auto|contradiction|]. symmetry. apply Sr.
      - destruct (Same L) as (H1 & H2); [|apply (same_dict (objs p)); auto]. intros ->. apply (R_tree _ _ _ _ T r); [exists r; split; [auto|rewrite E; left; auto]|]. apply (leaf_in' _ _ _ _ T). auto.
      - apply once_value. auto.
      - right. exists r. auto.
      - intros u Vu. apply value_set_other; auto.
      - intros f Hf. apply Same. intros ->. destruct (font_apart L r HL Hf) as (_ & A). apply (A L HL). rewrite E. left. auto.
    Qed.
  End Shared.

  (** ** Resource objects without images *)
  Section None.
    Hypothesis No1 : images_none ids info.

    Lemma none_first : xobjectVals cw1 = [] /\ embed = false.
    Proof.
      destruct first_is as (L & HL & C). pose proof (No1 L HL) as I1. pose proof (ir_cw1 _ _ _ _ _ _ _ _ _ _ _ _ _ _ _ Rn) as E1.
      destruct (info L) as [|rps fp|r rps fp] eqn:EL; [destruct C|destruct I1|]. destruct fp as [|f0|f f0]; try contradiction. destruct C as (-> & ->).
      rewrite (second_res p rid ts info T L r rps NoFont HL EL eq_refl) in E1. split; [|reflexivity]. inversion E1.
      destruct (res_of _ _ _ _ T L r rps _ HL EL) as (_ & _ & F & _). cbn [font_is] in F. apply key_none in F.
      cbn [xobjectVals flat_map fst snd]. rewrite valOf_strs, F. reflexivity.
    Qed.
    Let St := third (proj1 none_first).

    Lemma none_must : vals = [] /\ old = [] /\ ch = B"I" /\ idx = 0 /\ must = imgReplacesPlain new cw.
    Proof.
      assert (Ev : vals = []).
      { rewrite (ir_vals _ _ _ _ _ _ _ _ _ _ _ _ _ _ _ Rn). destruct (xobjectVals cw) as [|[k v] l0] eqn:E; [reflexivity|]. exfalso.
        assert (H : In (k, v) (xobjectVals cw)) by (rewrite E; left; auto). apply vals_in in H. destruct H as (l & H & V). apply in_get in H; [|apply (st_nodup _ _ _ _ _ St)].
        destruct (val_cases St k l v H V) as [(rps & fp & HL & EL & Nf & _)|(L & rps & fp & HL & EL & Nf & _)].
        - pose proof (No1 k HL) as I1. rewrite EL in I1. exact I1.
        - pose proof (No1 L HL) as I1. rewrite EL in I1. destruct fp; congruence || contradiction. }
      pose proof (ir_scan _ _ _ _ _ _ _ _ _ _ _ _ _ _ _ Rn) as Sc. pose proof (Fr [14] _ vals) as Pm. rewrite Ev in Sc, Pm. apply Permutation_sym, Permutation_nil in Pm. rewrite Pm in Sc.
      cbn [scanXobjs] in Sc. inversion Sc as [[E1 E2 E3]]. pose proof (ir_must _ _ _ _ _ _ _ _ _ _ _ _ _ _ _ Rn) as M. rewrite Ev, (proj2 none_first), <- E1, <- E2, <- E3 in M.
      split; [auto|]. split; [auto|]. split; [auto|]. split; [auto|exact M].
    Qed.

    (** The dictionary that is added. *)
    Definition none_value : bytes := norm (xs_dict new).
    Lemma none_value_is : propertyType none_value = PObject /\ readProperties none_value = Ok (map xprop new).
    Proof.
      destruct none_must as (Ev & Eo & Ec & Ei & M). assert (Nx : Forall xnamed new) by (rewrite Ec; apply xnew_named, I_plain).
      destruct (xs_read new Nx) as (R3 & T3). split; auto.
    Qed.
    Lemma none_written : forall j ps n, map_get cw j = Some (concat (repeat (strs ps) (S n))) -> dict (objs p) j ps -> good ps -> Forall seen_value ps ->
      Forall (fun q => balanced 0 0 (pval q) = true) ps -> dict (objs p') j (concat (repeat ps (S n)) ++ [mkProp XO none_value]).
    Proof.
      intros j rps n Gr Dr Gq Sv' Bl'. destruct none_must as (Ev & Eo & Ec & Ei & M).
      assert (Nx : Forall xnamed new) by (rewrite Ec; apply xnew_named, I_plain).
      destruct (plain_get new cw) as (Km & Gm). rewrite <- M in Km, Gm. assert (Nm : NoDup (map fst must)) by (rewrite Km; apply (st_nodup _ _ _ _ _ St)).
      destruct (must_data Nm) as (Ho & Da).
      assert (Bq : Forall (fun q => bal 0 0 (pval q) = true) rps) by (eapply Forall_impl; [|exact Bl']; cbn beta; intros q Hq; rewrite balanced_bal in Hq; exact Hq).
      set (rn := concat (repeat rps (S n))) in *.
      assert (Sn : Forall visible rn) by (apply Forall_forall; intros q Hq; apply concat_in in Hq; rewrite Forall_forall in Sv'; apply Sv'; auto).
      assert (Bn : Forall (fun q => bal 0 0 (pval q) = true) rn) by (apply Forall_forall; intros q Hq; apply concat_in in Hq; rewrite Forall_forall in Bq; apply Bq; auto).
      assert (W0 : wsp []) by constructor.
      assert (Kc : Forall key_char XO) by (repeat (constructor; [unfold key_char; cbn; repeat split; try lia; try reflexivity|]); constructor).
      assert (Ks : no_occ stream_kw XO) by (apply contains_false; reflexivity).
      pose proof (k_added XO [] (map xpiece new) W0 (xs_nestable new Nx) rn (good_repeat rps n Gq Bq) Sn Bn Kc Ks) as R2.
      change (dtext [] (map xpiece new)) with (xs_dict new) in R2. rewrite <- xs_value in R2.
      apply dict_data. rewrite Ho, Da, Gm, Gr, strs_repeat. split; [apply dict_data in Dr; apply Dr|exact R2].
    Qed.
    Lemma none_res : forall L r rps, In L ids -> info L = ResAt r rps NoFont -> dict (objs p) r rps -> good rps -> Forall seen_value rps ->
      Forall (fun q => balanced 0 0 (pval q) = true) rps -> exists n, dict (objs p') r (concat (repeat rps (S n)) ++ [mkProp XO none_value]).
    Proof.
      intros L r rps HL EL D G Sv Bl. destruct (leaf_found _ _ _ _ T cw St L r HL (x_res _ _ _ _ EL)) as (lr & Gr).
      destruct (res_items _ _ _ _ T cw St L r rps _ lr HL EL Gr) as (n & -> & _). exists n. apply none_written; auto.
    Qed.
    (** Objects of the page tree get the dictionary, too, if they are visited. *)
    Lemma none_tree : forall j ps, In j (root p :: rid :: flat_map tree_ids ts) -> dict (objs p) j ps -> good ps -> Forall seen_value ps ->
      Forall (fun q => balanced 0 0 (pval q) = true) ps ->
      (has_obj (objs p') j = has_obj (objs p) j /\ data_of (objs p') j = data_of (objs p) j) \/
      exists n, dict (objs p') j (concat (repeat ps (S n)) ++ [mkProp XO none_value]) /\ (In j ids -> n = 0%nat).
    Proof.
      intros j ps Ht D G Sv Bl. destruct (map_get cw j) as [l|] eqn:Gj.
      - right. pose proof (st_sound _ _ _ _ _ St _ _ Gj) as Sk. destruct (seen_is _ _ _ _ T _ _ Sk) as (C & X & n & HC & _ & Kd & Cn & ->).
        assert (E : X = strs ps /\ (In j ids -> n = 0%nat)).
        { pose proof D as Dd. apply dict_data in Dd. destruct Dd as (_ & Rd). destruct Kd as [k ps' Hn R NF|L HL|L r rps fp HL Ei|f Hf].
          - split; [congruence|]. intros HL. pose proof (page_once _ _ _ _ T C k HC HL) as Le. lia.
          - destruct (page_of _ _ _ _ T L HL) as (ps0 & P & NF & _). pose proof (page_all _ _ _ _ P) as (_ & _ & _ & Im). destruct P as (D0 & _).
            assert (ps0 = ps) by (eapply dict_fun; eauto). subst ps0. pose proof (No1 L HL) as I1. split.
            + destruct (info L) as [|? []|? ? []]; try contradiction; exact Im.
            + intros _. pose proof (page_once _ _ _ _ T C L HC HL) as Le. lia.
          - exfalso. destruct (td_apart _ _ _ _ T L r r L HL HL) as (A & _). apply A; [rewrite Ei; left; reflexivity|exact Ht].
          - exfalso. destruct Hf as (L & HL & Hf). pose proof (No1 L HL) as I1. destruct (info L) as [|? []|? ? []]; contradiction. }
        destruct E as (-> & E0). exists n. split; [|exact E0]. apply none_written; auto.
      - left. destruct none_must as (_ & _ & _ & _ & M). destruct (plain_get new cw) as (Km & Gm). rewrite <- M in Km, Gm.
        assert (Nm : NoDup (map fst must)) by (rewrite Km; apply (st_nodup _ _ _ _ _ St)).
        destruct (must_data Nm) as (Ho & Da). split; [apply Ho|]. rewrite Da, Gm, Gj. reflexivity.
    Qed.

    Lemma ext_good : forall j ps, extendable (objs p) j ps -> dict (objs p) j ps /\ good ps /\ Forall seen_value ps /\ Forall (fun q => balanced 0 0 (pval q) = true) ps.
    Proof.
      intros j ps (((o & Vo & Rw) & Dl & Sv) & Bl). split; [exact Dl|]. split; [|auto].
      destruct Dl as (o1 & V1 & En). assert (o1 = o) by (apply version_get in Vo, V1; congruence). subst o1. eapply rewritable_good; eauto.
    Qed.
    Lemma none_objects : forall L r rps ps, In L ids -> info L = ResAt r rps NoFont -> extendable (objs p) L ps -> extendable (objs p) r rps ->
      exists n x, dict (objs p) L ps /\ dict (objs p') L (ps ++ [mkProp XO x]) /\ dict (objs p') r (concat (repeat rps (S n)) ++ [mkProp XO x]) /\
        propertyType x = PObject /\ readProperties x = Ok (map xprop new).
    Proof.
      intros L r rps ps HL EL E1 E2. destruct (ext_good _ _ E1) as (D1 & G1 & S1 & B1). destruct (ext_good _ _ E2) as (D2 & G2 & S2 & B2).
      destruct (none_res L r rps HL EL D2 G2 S2 B2) as (n & Dn). exists n, none_value. split; [exact D1|]. split; [|split; [exact Dn|apply none_value_is]].
      destruct (leaf_found _ _ _ _ T cw St L L HL (x_head L)) as (l & G). pose proof (leaf_items _ _ _ _ T cw St L l HL G) as El.
      destruct (page_of _ _ _ _ T L HL) as (ps0 & P & NF & _). pose proof (page_all _ _ _ _ P) as (_ & _ & _ & Im). destruct P as (D0 & _).
      assert (ps0 = ps) by (eapply dict_fun; eauto). subst ps0. rewrite EL in Im.
      pose proof (none_written L ps 0%nat) as H. cbn [repeat concat] in H. rewrite !app_nil_r in H. apply H; auto. rewrite G, El, Im. reflexivity.
    Qed.

    Lemma none_names : Forall is_int imgs -> Forall2 (fun i nm => font_named (map xprop new) (fst nm ++ itoa (snd nm)) i) imgs names.
    Proof.
      intros Fi. destruct none_must as (_ & _ & Ec & Ei & _).
      assert (Lc : Forall ltr (B"I")) by (constructor; [unfold ltr; cbn; lia|constructor]).
      rewrite (ir_names _ _ _ _ _ _ _ _ _ _ _ _ _ _ _ Rn). apply (all_names (font_named (map xprop new))); [|apply newx_pairs]. intros x Hx. apply (xnew _ imgs ch idx); auto.
      - rewrite Ec. exact Lc.
      - lia.
      - intros y Hy. split; [|auto]. destruct (newx_char _ _ _ _ Hy) as (E1 & E2 & _). split; [rewrite E1, Ec; auto|lia].
      - exists x. split; [auto|]. apply same_iff. auto.
      - destruct (newx_char _ _ _ _ Hx) as (_ & _ & Hi). rewrite Forall_forall in Fi. apply is_int_in. auto.
    Qed.
    Theorem none_after : Forall is_int imgs -> forall L r rps ps, In L ids -> info L = ResAt r rps NoFont -> extendable (objs p) L ps -> extendable (objs p) r rps ->
      exists xps', page_images (objs p') L xps' /\ Forall2 (fun i nm => font_named xps' (fst nm ++ itoa (snd nm)) i) imgs names.
    Proof.
      intros Fi L r rps ps HL EL El Er. exists (map xprop new). split; [|apply none_names; exact Fi].
      destruct (none_objects L r rps ps HL EL El Er) as (n & x & D & D' & Dr & Tx & Rx).
      destruct (page_of _ _ _ _ T L HL) as (ps0 & P & _). destruct P as (D0 & P2). assert (ps0 = ps) by (eapply dict_fun; eauto). subst ps0.
      rewrite EL in P2. destruct P2 as (v & Ov & Iv & _ & F). cbn [font_is] in F.
      exists (ps ++ [mkProp XO x]), v, (concat (repeat rps (S n)) ++ [mkProp XO x]), x. split; [|split; [|split; [|split]]].
      - exact D'.
      - apply value_app_l. apply once_value. auto.
      - right. exists r. auto.
      - exists (concat (repeat rps (S n))), []. split; [reflexivity|]. intros q Hq E. apply concat_in in Hq. apply F. destruct q as [kq vq]. cbn [pkey] in E. subst kq. exists vq. exact Hq.
      - left. auto.
    Qed.

    (** Only the page tree and the resource objects are written anew. *)
    Lemma none_same : forall j, ~ In j (root p :: rid :: flat_map tree_ids ts) -> (forall L, In L ids -> ~ In j (res_objects (info L))) ->
      has_obj (objs p') j = has_obj (objs p) j /\ data_of (objs p') j = data_of (objs p) j.
    Proof.
      intros j Ht Hr. destruct none_must as (_ & _ & _ & _ & M). destruct (plain_get new cw) as (Km & Gm). rewrite <- M in Km, Gm.
      assert (Nm : NoDup (map fst must)) by (rewrite Km; apply (st_nodup _ _ _ _ _ St)).
      destruct (must_data Nm) as (Ho & Da). split; [apply Ho|]. rewrite Da, Gm. destruct (map_get cw j) as [l|] eqn:G; [|reflexivity]. exfalso.
      pose proof (st_sound _ _ _ _ _ St _ _ G) as Sk. destruct (seen_is _ _ _ _ T _ _ Sk) as (C & X & n & _ & _ & Kd & _).
      destruct Kd as [k ps Hn R NF|L HL|L r rps fp HL Ei|f Hf].
      - apply Ht. apply node_in. auto.
      - apply Ht. apply (leaf_in' _ _ _ _ T). auto.
      - apply (Hr L HL). rewrite Ei. left. auto.
      - destruct Hf as (L & HL & Hf). pose proof (No1 L HL) as I1. destruct (info L) as [|? []|? ? []]; contradiction.
    Qed.

    Theorem none_kept : forall L r rps ps fps, In L ids -> info L = ResAt r rps NoFont -> extendable (objs p) L ps -> extendable (objs p) r rps ->
      page_dict K2 (objs p) L fps -> page_dict K2 (objs p') L fps.
    Proof.
      intros L r rps ps fps HL EL El Er Pd. destruct (page_of _ _ _ _ T L HL) as (ps0 & P & _). destruct (page_of _ _ _ _ T2 L HL) as (ps2 & P2 & _).
      destruct (same_res _ _ _ _ _ _ _ _ P P2) as (<- & Sr). destruct (none_objects L r rps ps HL EL El Er) as (n & x & D & D' & Dr & Tx & Rx).
      destruct P as (D0 & P). assert (ps0 = ps) by (eapply dict_fun; eauto). subst ps0. rewrite EL in P, Sr. destruct P as (v & Ov & Iv & _ & _).
      apply (still_there K2 (objs p) (objs p') L ps (info2 L) fps rps (ps ++ [mkProp XO x]) v (concat (repeat rps (S n)) ++ [mkProp XO x])); auto.
      - destruct (info2 L); [auto|contradiction|]. symmetry. apply Sr.
      - apply value_app_l. apply once_value. auto.
      - right. exists r. auto.
      - intros u Vu. cbn [repeat concat]. rewrite <- app_assoc. apply value_app_l. exact Vu.
      - intros f Hf. apply none_same; apply (font_apart L f HL Hf).
    Qed.
  End None.
End Run.
