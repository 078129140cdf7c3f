(** Dictionaries in which a font dictionary is written anew. *)
From Coq Require Import String List ZArith Lia Bool Permutation.
From Verif Require Import Base BaseProofs Output Props PropsSpec PropsFlat PropsWrite PropsRead PropsNorm PropsStable PropsRefs PropsFinal PdfData PagesSpec PagesProofs PagesEdit PagesOps
  Squeeze PiecesRead PiecesNest Crawl Inject CrawlProofs CrawlVisits PageCrawl InjectMaps InjectNames InjectItems InjectTexts InjectSpec InjectMarks InjectVisits InjectPages InjectTidy
  InjectFonts InjectFinal ResTexts ImgNames ImgSpec ImgLists ImgCrawl ImgPages ContentSpec ApiIds SaveSpec SaveFrame.
Open Scope Z_scope.
Open Scope list_scope.

(** ** The word Pages in a font dictionary *)
Notation Wd := (B"Pages").

Lemma no_first : forall w s, w <> [] -> ~ In (hd 0 w) s -> no_occ w s.
Proof.
  intros w s Nw H i (a & b & E & _). apply H. rewrite E. apply in_or_app. right. apply in_or_app. left. destruct w; [congruence|left; reflexivity].
Qed.
Lemma no_tail : forall w a b, w <> [] -> no_occ w a -> Forall (fun c => ~ In c w) b -> no_occ w (a ++ b).
Proof.
  intros w a b Nw H F. destruct b as [|c b']; [rewrite app_nil_r; exact H|]. inversion F; subst. apply no_occ_sep; auto.
  apply no_first; [exact Nw|]. rewrite Forall_forall in H3. intros X. apply H3 in X. apply X. destruct w; [congruence|left; reflexivity].
Qed.
Lemma no_norm : forall s, no_occ Wd s -> no_occ Wd (norm s).
Proof.
  intros s H. unfold norm.
  assert (F : Forall (fun c => is_ws4 c = false) Wd) by (repeat constructor).
  assert (G : forall c p, is_ws4 c = false -> ~ In c Wd ->
    forall x, prefixb (c :: p) x = true -> match x with [] => False | c :: _ => is_ws4 c = false /\ ~ In c Wd end).
  { intros c p H1 H2 [|y x] P; [discriminate|]. cbn in P. apply andb_true_iff in P. destruct P as [P _].
    assert (y = c) by lia. subst. auto. }
  repeat (apply no_occ_strip; [discriminate|exact F| apply G; [reflexivity| intros C; cbn in C; lia] |]).
  apply no_occ_collapse; auto. discriminate.
Qed.
Lemma digits_off : forall n, Forall (fun c => ~ In c Wd) (itoa n).
Proof. intros n. eapply Forall_impl; [|apply itoa_chars]. cbn beta. intros c H X. unfold num_char in H. cbn in X. lia. Qed.
Lemma fonts_no : forall fs, Forall (fun f => no_occ Wd (cf_prefix f)) fs -> no_occ Wd (fonts_dict fs).
Proof.
  intros fs F. unfold fonts_dict, dtext.
  assert (S : forall a c b, ~ In c Wd -> no_occ Wd a -> no_occ Wd b -> no_occ Wd (a ++ c :: b)) by (intros; apply no_occ_sep; auto; discriminate).
  assert (N : no_occ Wd []) by (apply occ_nil; discriminate).
  assert (E : no_occ Wd (ptext (map fpiece fs) ++ B">>")).
  { induction F as [|f fs Hf F IH].
    - apply no_first; [discriminate|]. cbn. lia.
    - cbn [map]. rewrite ptext_cons. unfold fpiece at 1. cbn [pc_key pc_gap pc_val pc_end].
      match goal with |- no_occ _ ?t => replace t with ([] ++ 47 :: (cf_name f ++ 32 :: (refText (cf_obj f) ++ 10 :: (ptext (map fpiece fs) ++ B">>")))) end.
      + apply S; [cbn; lia|exact N|]. apply S; [cbn; lia| |apply S; [cbn; lia| |exact IH]].
        * unfold cf_name. apply no_tail; [discriminate|exact Hf|apply digits_off].
        * apply no_first; [discriminate|]. unfold refText. intros X. change (hd 0 Wd) with 80 in X. apply in_app_or in X. destruct X as [X|X]; [|cbn in X; lia].
          pose proof (digits_off (cf_obj f)) as D. rewrite Forall_forall in D. apply D in X. apply X. left. reflexivity.
      + cbn [app]. unfold pc_text, fpiece. cbn [pc_key pc_gap pc_val pc_end]. repeat (rewrite <- ?app_assoc; cbn [app]). reflexivity. }
  change (B"<<" ++ [10] ++ ptext (map fpiece fs) ++ B">>") with ([60; 60] ++ 10 :: (ptext (map fpiece fs) ++ B">>")).
  apply S; [cbn; lia| |exact E]. apply no_first; [discriminate|]. cbn. lia.
Qed.
Lemma no_slash : forall s, no_occ Wd s -> no_occ (B"/Pages") s.
Proof.
  intros s H i (a & b & E & _). apply (H (Datatypes.S (List.length a))). exists (a ++ [47]), b. split; [rewrite E, <- app_assoc; reflexivity|]. rewrite app_length. cbn. lia.
Qed.
Lemma old_no : forall fps fs, cfonts_of fps = Ok fs -> (forall q a b, In q fps -> pkey q <> a ++ Wd ++ b) -> Forall (fun f => no_occ Wd (cf_prefix f)) fs.
Proof.
  intros fps fs C H. apply Forall_forall. intros f Hf. destruct (F2_in_r _ _ _ _ _ _ (cfonts_each _ _ C) Hf) as (q & Hq & Sp & _).
  destruct (split_prefix _ _ _ Sp) as (_ & n & ->). intros i (a & b & E & _). destruct (trim_space_sub (pkey q)) as (x & y & Et).
  apply (H q (x ++ a) (b ++ skipn n (trim_space (pkey q)) ++ y) Hq). rewrite Et at 1. rewrite <- (firstn_skipn n (trim_space (pkey q))) at 1. rewrite E, <- !app_assoc. reflexivity.
Qed.
Lemma new_no : forall fonts max, Forall (fun f => no_occ Wd (cf_prefix f)) (newFonts fonts max).
Proof.
  intros fonts max. apply Forall_forall. intros f Hf. destruct (proj1 (new_indexes fonts max) f Hf) as (E & _). rewrite E.
  apply no_first; [discriminate|]. cbn. lia.
Qed.

(** ** Entries *)
Lemma copies_alike : forall ps k v n, alike ps k v -> alike (concat (repeat ps (Datatypes.S n))) k v.
Proof.
  intros ps k v n ((w & Hw) & H). split; [exists w; cbn [repeat concat]; apply in_or_app; auto|]. intros u Hu. apply H. eapply concat_in; eauto.
Qed.
Lemma set_alike : forall ps k v k' w, k' <> k -> alike ps k v -> alike (setPropByKey k' w ps) k v.
Proof.
  intros ps k v k' w Ne ((u & Hu) & H). split.
  - exists u. clear H. induction ps as [|q ps IH]; [destruct Hu|]. cbn [setPropByKey]. destruct (beqb (pkey q) k') eqn:E.
    + destruct Hu as [->|Hu]; [|right; exact Hu]. apply beqb_eq in E. cbn in E. congruence.
    + destruct Hu as [->|Hu]; [left; reflexivity|right; auto].
  - intros x Hx. apply H. clear H Hu. induction ps as [|q ps IH]; [destruct Hx|]. cbn [setPropByKey] in Hx. destruct (beqb (pkey q) k') eqn:E.
    + destruct Hx as [Hx|Hx]; [|right; exact Hx]. injection Hx as Hx _. apply beqb_eq in E. congruence.
    + destruct Hx as [Hx|Hx]; [left; exact Hx|right; auto].
Qed.
Lemma set_other_in : forall ps k v k' w, k' <> k -> In (mkProp k v) (setPropByKey k' w ps) -> In (mkProp k v) ps.
Proof.
  induction ps as [|q ps IH]; intros k v k' w Ne H; [destruct H|]. cbn [setPropByKey] in H. destruct (beqb (pkey q) k') eqn:E.
  - destruct H as [H|H]; [|right; exact H]. injection H as H _. apply beqb_eq in E. congruence.
  - destruct H as [H|H]; [left; exact H|right; eapply IH; eauto].
Qed.
Lemma set_all : forall (P : bytes -> Prop) ps k v, P v -> Forall (fun q => P (pval q)) ps -> Forall (fun q => P (pval q)) (setPropByKey k v ps).
Proof.
  intros P. induction ps as [|q ps IH]; intros k v Hv F; [constructor|]. inversion F; subst. cbn [setPropByKey]. destruct (beqb (pkey q) k); constructor; auto.
Qed.
Lemma set_clear : forall n k v ps, solid n -> no_occ n (text_of ps) -> no_occ n v -> no_occ n (text_of (setPropByKey k v ps)).
Proof.
  intros n k v ps S H Hv. apply text_clear; [exact S|]. apply text_clear in H; [|exact S]. induction H as [|q ps Hq F IH]; [constructor|]. cbn [setPropByKey].
  destruct (beqb (pkey q) k); constructor; auto. cbn [pkey pval]. tauto.
Qed.
Lemma copies_clear : forall n ps m, solid n -> no_occ n (text_of ps) -> no_occ n (text_of (concat (repeat ps m))).
Proof.
  intros n ps m S H. apply text_clear; [exact S|]. apply text_clear in H; [|exact S]. apply Forall_forall. intros q Hq. apply concat_in in Hq.
  rewrite Forall_forall in H. apply H. exact Hq.
Qed.


(** ** The mark of a node, in a dictionary inside another *)
Notation Mk := (B"/Pages").
Lemma no_occ_strip1 : forall a w pat s, Forall (fun c => is_ws4 c = false) w ->
  (forall x, prefixb pat x = true -> match x with [] => False | c :: _ => is_ws4 c = false /\ ~ In c w end) ->
  no_occ (a :: w) s -> no_occ (a :: w) (strip pat s).
Proof.
  intros a w pat s F H. induction s as [|d s IH]; intros N; auto. pose proof N as N0. apply no_occ_prefix in N. destruct N as [N1 N2].
  cbn [strip]. destruct (is_ws4 d && prefixb pat (skip_ws s)) eqn:E; [auto|]. apply no_occ_prefix. split; [|auto]. cbn [prefixb] in *. destruct (a =? d); [|reflexivity]. cbn [andb] in *.
  destruct (prefixb w (strip pat s)) eqn:P; auto. rewrite <- N1. symmetry. apply prefixb_strip with (pat := pat); auto.
Qed.
Lemma mark_norm : forall s, no_occ Mk s -> no_occ Mk (norm s).
Proof.
  intros s H. unfold norm. change Mk with (47 :: Wd) in *.
  assert (F : Forall (fun c => is_ws4 c = false) Wd) by (repeat constructor).
  assert (G : forall c p, is_ws4 c = false -> ~ In c Wd ->
    forall x, prefixb (c :: p) x = true -> match x with [] => False | c :: _ => is_ws4 c = false /\ ~ In c Wd end).
  { intros c p H1 H2 [|y x] P; [discriminate|]. cbn in P. apply andb_true_iff in P. destruct P as [P _].
    assert (y = c) by lia. subst. auto. }
  repeat (apply no_occ_strip1; [exact F| apply G; [reflexivity| intros C; cbn in C; lia] |]).
  apply no_occ_collapse; auto. discriminate.
Qed.
Lemma spset_clear : forall n K w ps, solid n -> no_occ n (text_of ps) -> no_occ n w -> no_occ n (ptext (spset K [32] w [10; 10] ps)).
Proof.
  intros n K w ps S H Hw. apply text_clear in H; [|exact S]. destruct S as (Nn & N10 & N32 & _).
  assert (P : forall a c b, c = 32 \/ c = 10 -> no_occ n a -> no_occ n b -> no_occ n (a ++ c :: b)) by (intros a c b [->| ->] Ha Hb; apply no_occ_sep; auto).
  assert (Q : forall q ps, no_occ n (47 :: pkey q) -> no_occ n (pval q) -> no_occ n ps -> no_occ n (pc_text (sp q) ++ ps)).
  { intros [k v] t H1 H2 H3. unfold sp, pc_text. cbn [pkey pval] in *. destruct v as [|c v]; cbn [pc_key pc_gap pc_val pc_end].
    - match goal with |- no_occ _ ?t0 => replace t0 with ((47 :: k) ++ 32 :: t) by (cbn [app]; repeat (rewrite <- ?app_assoc; cbn [app]); reflexivity) end. apply P; auto.
    - match goal with |- no_occ _ ?t0 => replace t0 with ((47 :: k) ++ 32 :: ((c :: v) ++ 10 :: t)) by (cbn [app]; repeat (rewrite <- ?app_assoc; cbn [app]); reflexivity) end. apply P; auto. }
  assert (R : forall ps, Forall (fun p => no_occ n (47 :: pkey p) /\ no_occ n (pval p)) ps -> no_occ n (ptext (map sp ps))).
  { intros l F. induction F as [|q l (H1 & H2) F IH]; [apply occ_nil; exact Nn|]. cbn [map]. unfold ptext in *. cbn [flat_map]. apply Q; auto. }
  induction H as [|q ps (H1 & H2) F IH]; [apply occ_nil; exact Nn|]. cbn [spset]. destruct (beqb (pkey q) K).
  - rewrite ptext_cons. cbn [pc_key pc_gap pc_val pc_end].
    match goal with |- no_occ _ ?t0 => replace t0 with ((47 :: pkey q) ++ 32 :: (w ++ 10 :: ([] ++ 10 :: ptext (map sp ps)))) by (cbn [app]; repeat (rewrite <- ?app_assoc; cbn [app]); reflexivity) end.
    apply P; auto. apply P; auto. apply P; auto. apply occ_nil; exact Nn.
  - unfold ptext in *. cbn [flat_map]. apply Q; auto.
Qed.
Lemma dtext_mark : forall lead L, wsp lead -> no_occ Mk (ptext L) -> no_occ Mk (dtext lead L).
Proof.
  intros lead L W H. unfold dtext.
  assert (S : forall a c b, ~ In c Mk -> no_occ Mk a -> no_occ Mk b -> no_occ Mk (a ++ c :: b)) by (intros; apply no_occ_sep; auto; discriminate).
  assert (N : no_occ Mk []) by (apply occ_nil; discriminate).
  assert (E : no_occ Mk (ptext L ++ B">>")).
  { change (B">>") with (62 :: [] ++ [62]). apply S; [cbn; lia|exact H|]. apply S; [cbn; lia|exact N|exact N]. }
  change (B"<<" ++ lead ++ ptext L ++ B">>") with ([] ++ 60 :: ([] ++ 60 :: (lead ++ ptext L ++ B">>"))). apply S; [cbn; lia|exact N|]. apply S; [cbn; lia|exact N|].
  clear H. induction W as [|c lead Hc W IH]; [exact E|]. change ((c :: lead) ++ ptext L ++ B">>") with ([] ++ c :: (lead ++ ptext L ++ B">>")). apply S; [|exact N|exact IH].
  intros X. cbn in X. unfold is_ws4 in Hc. lia.
Qed.

(** ** Entries with one dictionary written anew *)
Definition nice (w : bytes) : Prop := exists lead X, wsp lead /\ nestable X /\ w = norm (dtext lead X).

Record keeps (K : bytes) (ps ps1 : list prop) : Prop := {
  kp_good : good ps -> good ps1;
  kp_seen : Forall seen_value ps -> Forall seen_value ps1;
  kp_nests : Forall nests ps -> Forall nests ps1;
  kp_bal : Forall (fun q => balanced 0 0 (pval q) = true) ps -> Forall (fun q => balanced 0 0 (pval q) = true) ps1;
  kp_quiet : ~ mentions ps Mk -> ~ mentions ps1 Mk;
  kp_value : forall k v, k <> K -> value ps k v -> value ps1 k v;
  kp_alike : forall k v, k <> K -> alike ps k v -> alike ps1 k v;
  kp_has : forall k, has_key ps1 k -> has_key ps k
}.
Lemma keeps_refl : forall K ps, keeps K ps ps.
Proof. intros K ps. constructor; auto. Qed.
Lemma set_keys : forall K w ps, map pkey (setPropByKey K w ps) = map pkey ps.
Proof.
  intros K w. induction ps as [|q ps IH]; [reflexivity|]. cbn [setPropByKey]. destruct (beqb (pkey q) K); [reflexivity|]. cbn [map]. rewrite IH. reflexivity.
Qed.
Lemma set_has : forall K w ps k, has_key (setPropByKey K w ps) k <-> has_key ps k.
Proof. intros K w ps k. rewrite !keys_has, set_keys. reflexivity. Qed.
Lemma keeps_set : forall K w n ps, nice w -> no_occ Mk w -> (good ps -> good (concat (repeat ps (Datatypes.S n)))) ->
  keeps K ps (setPropByKey K w (concat (repeat ps (Datatypes.S n)))).
Proof.
  intros K w n ps (lead & X & W & NX & ->) Nw Gn. set (q := concat (repeat ps (Datatypes.S n))) in *.
  assert (Iq : forall x, In x q -> In x ps) by (intros x Hx; apply concat_in in Hx; exact Hx).
  assert (Fq : forall P : prop -> Prop, Forall P ps -> Forall P q) by (intros P F; apply Forall_forall; intros x Hx; rewrite Forall_forall in F; auto).
  constructor.
  - intros G. apply k_good; auto.
  - intros F. apply k_visible; auto.
  - intros F. apply k_nests; auto.
  - intros F. apply (set_all (fun v => balanced 0 0 v = true)); [|apply Fq; exact F]. rewrite balanced_bal. apply k_value; auto.
  - intros H. apply quiet_iff. apply set_clear; [apply solid_pages| |exact Nw]. apply copies_clear; [apply solid_pages|]. apply quiet_iff. exact H.
  - intros k v Ne V. apply value_set_other; [exact Ne|]. unfold q. cbn [repeat concat]. apply value_app_l. exact V.
  - intros k v Ne A. apply set_alike; [congruence|]. apply copies_alike. exact A.
  - intros k H. apply (proj1 (set_has _ _ _ _)) in H. destruct H as (v & H). exists v. apply Iq. exact H.
Qed.
Lemma set_split : forall K v w a c, ~ has_key a K -> setPropByKey K w (a ++ mkProp K v :: c) = a ++ mkProp K w :: c.
Proof.
  intros K v w. induction a as [|q a IH]; intros c N; cbn [app setPropByKey].
  - cbn [pkey]. rewrite beqb_refl. reflexivity.
  - destruct (beqb (pkey q) K) eqn:E; [|rewrite IH; [reflexivity|intros (u & Hu); apply N; exists u; right; exact Hu]].
    exfalso. apply N. apply beqb_eq in E. exists (pval q). left. destruct q. cbn in *. congruence.
Qed.
Lemma set_once : forall K v w ps, once ps K v -> once (setPropByKey K w ps) K w.
Proof. intros K v w ps (a & c & -> & Na & Nc). exists a, c. rewrite set_split by exact Na. auto. Qed.
Lemma add_once : forall ps k v q, once ps k v -> pkey q <> k -> once (ps ++ [q]) k v.
Proof.
  intros ps k v q (a & c & -> & Na & Nc) Ne. exists a, (c ++ [q]). split; [rewrite <- app_assoc; reflexivity|]. split; [exact Na|]. intros (u & Hu).
  apply in_app_or in Hu. destruct Hu as [Hu|[Hu|[]]]; [apply Nc; exists u; exact Hu|]. apply Ne. rewrite Hu. reflexivity.
Qed.
Lemma set_only : forall K w k v ps, K <> k -> only ps k v -> only (setPropByKey K w ps) k v.
Proof.
  intros K w k v ps Ne (a & c & -> & H).
  assert (Ks : forall a c, (forall q, In q (a ++ c) -> pkey q <> k) <-> ~ In k (map pkey (a ++ c))).
  { intros x y. split; [intros Hx Hk; apply in_map_iff in Hk; destruct Hk as (q & E & Hq); exact (Hx q Hq E)|intros Hx q Hq E; apply Hx; rewrite <- E; apply in_map; exact Hq]. }
  rewrite Ks in H. cut (exists a' c', setPropByKey K w (a ++ mkProp k v :: c) = a' ++ mkProp k v :: c' /\ map pkey (a' ++ c') = map pkey (a ++ c)).
  { intros (a' & c' & E & E'). exists a', c'. split; [exact E|]. apply Ks. rewrite E'. exact H. }
  clear H Ks. induction a as [|q a IH]; cbn [app setPropByKey].
  - cbn [pkey]. destruct (beqb k K) eqn:E; [apply beqb_eq in E; congruence|]. exists [], (setPropByKey K w c). split; [reflexivity|]. apply set_keys.
  - destruct (beqb (pkey q) K).
    + exists (mkProp (pkey q) w :: a), c. auto.
    + destruct IH as (a' & c' & E & E'). exists (q :: a'), c'. rewrite E. split; [reflexivity|]. cbn [app map]. rewrite E'. reflexivity.
Qed.
Lemma contents_refl : forall ps, contents_kept ps ps.
Proof. intros ps. split; auto. Qed.
Lemma contents_trans : forall a c d, contents_kept a c -> contents_kept c d -> contents_kept a d.
Proof. intros a c d (H1 & H2) (H3 & H4). split; auto. Qed.
Lemma contents_set : forall w ps, contents_kept ps (setPropByKey (B"Resources") w ps).
Proof. intros w ps. split; [apply (proj1 (set_has _ _ _ _))|]. intros v. apply set_only. discriminate. Qed.
Lemma contents_added : forall x ps, contents_kept ps (ps ++ [mkProp XO x]).
Proof.
  intros x ps. split.
  - intros (v & H). apply in_app_or in H. destruct H as [H|[H|[]]]; [exists v; exact H|discriminate].
  - intros v (a & c & -> & H). exists a, (c ++ [mkProp XO x]). split; [rewrite <- app_assoc; reflexivity|]. intros q Hq. rewrite app_assoc in Hq. apply in_app_or in Hq.
    destruct Hq as [Hq|[<-|[]]]; [apply H; exact Hq|discriminate].
Qed.
Lemma with_refl : forall ps, with_resources ps ps.
Proof. intros ps. split; auto. Qed.
Lemma with_trans : forall a c d, with_resources a c -> with_resources c d -> with_resources a d.
Proof. intros a c d (H1 & H2) (H3 & H4). split; [auto|]. intros k H. apply H4 in H. destruct H as [H|H]; auto. Qed.
Lemma with_set : forall w ps, with_resources ps (setPropByKey (B"Resources") w ps).
Proof. intros w ps. split; [intros k v Ne V; apply value_set_other; auto|]. intros k H. left. apply (proj1 (set_has _ _ _ _)) in H. exact H. Qed.
Lemma with_added : forall n x ps, with_resources ps (concat (repeat ps (Datatypes.S n)) ++ [mkProp XO x]).
Proof.
  intros n x ps. split.
  - intros k v _ V. cbn [repeat concat]. rewrite <- app_assoc. apply value_app_l. exact V.
  - intros k (v & Hv). apply in_app_or in Hv. destruct Hv as [Hv|[Hv|[]]]; [left; exists v; eapply concat_in; eauto|right; congruence].
Qed.
Lemma nice_brackets : forall lead Y ps, wsp lead -> nestable Y -> Forall (fun q => balanced 0 0 (pval q) = true) ps -> well_bracketed (norm (dtext lead Y)) ps.
Proof.
  intros lead Y ps W N F. exists (ntext (map pc_prop Y)). split; [apply norm_dtext; auto|]. destruct (ntext_facts Y N) as (T1 & T2 & T3 & _). rewrite balanced_bal. auto.
Qed.
