(** The entries of image dictionaries as they are read and added to. *)
From Coq Require Import String List ZArith Lia Bool Permutation.
From Verif Require Import Base BaseProofs Output Props PropsSpec PropsFlat PropsWrite PropsRead PropsNorm PropsStable PropsRefs PropsFinal PdfData PagesSpec PagesProofs PagesEdit
  Crawl Inject CrawlProofs Squeeze PiecesRead PiecesNest CrawlVisits PageCrawl InjectMaps InjectNames InjectItems InjectTexts InjectSpec InjectVisits InjectFonts InjectFinal ImgNames ImgSpec.
Open Scope Z_scope.
Open Scope list_scope.

(** ** As text *)
Definition xprop (x : xobj) : prop := mkProp (xo_name x) (refText (xo_obj x)).
Definition xpiece (x : xobj) : piece := mkPc (xo_name x) [32] (refText (xo_obj x)) [].

Lemma xpiece_props : forall xs, map pc_prop (map xpiece xs) = map xprop xs.
Proof. intros. rewrite map_map. reflexivity. Qed.
Lemma xpieces_ok : forall xs, Forall pc_ok (map xpiece xs).
Proof.
  intros xs. apply Forall_forall. intros x H. apply in_map_iff in H. destruct H as (f & <- & _).
  split; [apply ws1; reflexivity|split; [discriminate|constructor]].
Qed.
Lemma xobjs_ptext : forall xs, xobjs_text xs = ptext (map xpiece xs).
Proof.
  induction xs as [|x xs IH]; [reflexivity|]. unfold xobjs_text, ptext in *. cbn [map flat_map]. rewrite IH. f_equal.
  unfold pc_text, xpiece, xo_name, refText. cbn [pc_key pc_gap pc_val pc_end app]. repeat (rewrite <- ?app_assoc; cbn [app]). reflexivity.
Qed.
Definition xnamed (x : xobj) : Prop := plain_name (xo_name x).
Lemma xs_nestable : forall xs, Forall xnamed xs -> nestable (map xpiece xs).
Proof.
  intros fs F. unfold nestable. split; [apply xpieces_ok|]. rewrite xpiece_props. split; [|split].
  - apply wlist_app1. apply Forall_forall. intros p H. apply in_map_iff in H. destruct H as (f & <- & Hf).
    rewrite Forall_forall in F. specialize (F f Hf). cbn [xprop pkey pval]. split; [apply plain_key; auto|].
    split; [apply F|]. apply svalue_wvalue. apply ref_svalue1.
  - apply Forall_forall. intros p H. apply in_map_iff in H. destruct H as (f & <- & Hf).
    rewrite Forall_forall in F. specialize (F f Hf). split; cbn [xprop pkey pval]; [apply plain_bal; auto|apply bal_ref].
  - apply Forall_forall. intros p H. apply in_map_iff in H. destruct H as (f & <- & Hf). apply ref_quiet.
Qed.
Lemma xprop_norm : forall xs, map nprop (map xprop xs) = map xprop xs.
Proof. intros. rewrite map_map. apply map_ext. intros f. unfold nprop, xprop. cbn [pkey pval]. rewrite ref_norm. reflexivity. Qed.
Definition xs_dict (xs : list xobj) : bytes := dtext [] (map xpiece xs).
Lemma xs_value : forall xs, B"<<" ++ xobjs_text xs ++ B">>" ++ [10] = xs_dict xs ++ [10].
Proof. intros. unfold xs_dict, dtext. rewrite xobjs_ptext. cbn [app]. rewrite <- !app_assoc. reflexivity. Qed.

(** ** Names *)
Definition ltr (x : Z) : Prop := 97 <= x <= 122 \/ 65 <= x <= 90.
Definition wx (x : xobj) : Prop := Forall ltr (xo_char x) /\ 0 <= xo_index x.

Lemma ltr_facts : forall c, ltr c -> is_letter c = true /\ is_digit c = false.
Proof. intros c H. unfold ltr, is_letter, is_digit in *. lia. Qed.

Lemma name_inj : forall a b i j, Forall ltr a -> Forall ltr b -> 0 <= i -> 0 <= j -> a ++ itoa i = b ++ itoa j -> a = b /\ i = j.
Proof.
  assert (D : forall c b i j, 0 <= i -> ltr c -> itoa i = c :: b ++ itoa j -> False).
  { intros c b i j Hi Hc E. destruct (itoa_digits i Hi) as (d & t & Ei & Dd & _). rewrite Ei in E. assert (d = c) by congruence. subst d.
    apply ltr_facts in Hc. destruct Hc. congruence. }
  induction a as [|c a IH]; intros b i j Ha Hb Hi Hj E; destruct b as [|d b].
  - cbn [app] in E. split; [reflexivity|]. apply itoa_inj. auto.
  - exfalso. cbn [app] in E. inversion Hb; subst. exact (D d b i j Hi ltac:(assumption) E).
  - exfalso. cbn [app] in E. inversion Ha; subst. symmetry in E. exact (D c a j i Hj ltac:(assumption) E).
  - cbn [app] in E. inversion Ha; inversion Hb; subst. assert (c = d) by congruence. subst d. apply (f_equal (@tl Z)) in E. cbn [tl] in E.
    destruct (IH b i j) as (E1 & E2); auto. subst. auto.
Qed.
Lemma wx_inj : forall x y, wx x -> wx y -> xo_name x = xo_name y -> xo_char x = xo_char y /\ xo_index x = xo_index y.
Proof. intros x y (A1 & A2) (B1 & B2) E. apply name_inj; auto. Qed.
Lemma number_fun : forall k m n, image_number k m -> image_number k n -> m = n.
Proof.
  intros k m n (c & E & H & F) (c' & E' & H' & F'). subst k. destruct (name_inj c c' m n) as (_ & X); auto; lia.
Qed.

Lemma span_all : forall f a b, Forall (fun c => f c = true) a -> match b with [] => True | c :: _ => f c = false end -> span f (a ++ b) = (a, b).
Proof.
  intros f a b F H. induction F as [|c a Hc F IH]; cbn [app span].
  - destruct b as [|c b]; [reflexivity|]. cbn [span]. rewrite H. reflexivity.
  - rewrite Hc, IH. reflexivity.
Qed.
Lemma digits_trim : forall n, 0 <= n -> trim_space (itoa n) = itoa n.
Proof.
  intros n H. destruct (itoa_digits n H) as (c & t & E & Dc & F). rewrite E in *. apply trim_space_id.
  assert (A : forall d, In d (c :: t) -> ascii d /\ is_space1 d = false).
  { intros d Hd. rewrite Forall_forall in F. specialize (F d Hd). unfold ascii, is_space1, is_digit in *. lia. }
  destruct (A c (or_introl eq_refl)) as (A1 & A2).
  destruct t as [|y t'] eqn:Ek using rev_ind; [apply trimmed_one; auto|]. destruct (A y) as (A3 & A4); [right; apply in_or_app; right; left; auto|].
  apply trimmed_ascii; auto.
Qed.
Lemma regSplit_name : forall c n, Forall ltr c -> 0 <= n -> regSplit (c ++ itoa n) = (c, itoa n).
Proof.
  intros c n F H. unfold regSplit. destruct (itoa_digits n H) as (d & t & E & Dd & Fd).
  rewrite span_all.
  - rewrite <- (app_nil_r (itoa n)) at 1. rewrite span_all; [reflexivity| |exact Logic.I]. rewrite E. exact Fd.
  - eapply Forall_impl; [|exact F]. intros x Hx. apply ltr_facts in Hx. apply Hx.
  - rewrite E. unfold is_letter, is_digit in *. lia.
Qed.

(** What an entry is read as. *)
Definition reads (q : prop) (x : xobj) : Prop := pkey q = xo_name x /\ readObjID (pval q) = Ok (xo_obj x) /\ wx x /\ image_number (pkey q) (xo_index x) /\ xnamed x.

Lemma xobjs_reads : forall xps, numbered_images xps -> Forall2 reads xps (xobjs_of xps).
Proof.
  induction xps as [|q xps IH]; intros N; [constructor|]. cbn [xobjs_of].
  destruct (N q (or_introl eq_refl)) as (Rg & (n & c & E & H & F) & (o & I')).
  rewrite E at 1. rewrite regSplit_name by (auto; lia). rewrite digits_trim, atoi_itoa by (unfold int64_min, int64_max; lia). cbn [bind]. rewrite I'. cbn [bind].
  constructor; [|apply IH; intros q' Hq'; apply N; right; auto].
  unfold reads, xnamed, wx, xo_name. cbn [xo_char xo_index xo_obj]. split; [exact E|]. split; [exact I'|]. split; [split; [exact F|lia]|]. split; [exists c; auto|].
  rewrite <- E. apply regular_plain. exact Rg.
Qed.

(** ** Searching for a free number *)
Lemma scan_facts : forall vals xs ch idx old ch' idx',
  (forall k v, In (k, v) vals -> Forall wx (xobjs_parse v) /\ forall a x y, xobjs_parse v = a ++ [x] -> In y (xobjs_parse v) -> xo_index y <= xo_index x) ->
  Forall ltr ch -> 0 <= idx -> Forall wx xs -> (forall x, In x xs -> xo_index x <= idx) ->
  scanXobjs vals xs ch idx = (old, ch', idx') ->
  Forall ltr ch' /\ 0 <= idx' /\ Forall wx old /\ (forall x, In x old -> xo_index x <= idx') /\
  forall x, In x old <-> In x xs \/ exists k v, In (k, v) vals /\ In x (xobjs_parse v).
Proof.
  induction vals as [|[k v] vals IH]; intros xs ch idx old ch' idx' G Hc Hi Hw Hm S.
  - cbn [scanXobjs] in S. inversion S; subst. split; [auto|]. split; [auto|]. split; [auto|]. split; [auto|]. intros x. split; [auto|]. intros [H|(k & v & [] & _)]. auto.
  - cbn [scanXobjs] in S. cbv zeta in S. destruct (G k v (or_introl eq_refl)) as (Gw & Gl).
    assert (G' : forall k0 v0, In (k0, v0) vals -> Forall wx (xobjs_parse v0) /\ forall a x y, xobjs_parse v0 = a ++ [x] -> In y (xobjs_parse v0) -> xo_index y <= xo_index x)
      by (intros; apply (G k0); right; auto).
    assert (Fin : forall x, In x (xs ++ xobjs_parse v) \/ (exists k0 v0, In (k0, v0) vals /\ In x (xobjs_parse v0)) <->
      In x xs \/ exists k0 v0, In (k0, v0) ((k, v) :: vals) /\ In x (xobjs_parse v0)).
    { intros x. rewrite in_app_iff. split.
      - intros [[H|H]|(k0 & v0 & H & H')]; [left; auto|right; exists k, v; split; [left; auto|auto]|right; exists k0, v0; split; [right; auto|auto]].
      - intros [H|(k0 & v0 & [E|H] & H')]; [left; left; auto|inversion E; subst; left; right; auto|right; eauto]. }
    assert (Hw' : Forall wx (xs ++ xobjs_parse v)) by (apply Forall_app; auto).
    destruct (rev (xs ++ xobjs_parse v)) as [|x r] eqn:R.
    + assert (E0 : xs ++ xobjs_parse v = []) by (rewrite <- (rev_involutive (xs ++ xobjs_parse v)), R; reflexivity).
      assert (Hm' : forall y, In y (xs ++ xobjs_parse v) -> xo_index y <= idx) by (rewrite E0; intros y []).
      destruct (IH _ _ _ _ _ _ G' Hc Hi Hw' Hm' S) as (A1 & A2 & A3 & A4 & A5).
      split; [auto|]. split; [auto|]. split; [auto|]. split; [auto|]. intros y. rewrite A5. apply Fin.
    + assert (E0 : xs ++ xobjs_parse v = rev r ++ [x]) by (rewrite <- (rev_involutive (xs ++ xobjs_parse v)), R; reflexivity).
      assert (Wx : wx x) by (rewrite Forall_forall in Hw'; apply Hw'; rewrite E0; apply in_or_app; right; left; auto).
      assert (Hm' : forall y, In y (xs ++ xobjs_parse v) -> xo_index y <= (if idx <? xo_index x then xo_index x else idx)).
      { assert (Le : idx <= (if idx <? xo_index x then xo_index x else idx)) by (destruct (Z.ltb_spec idx (xo_index x)); lia).
        assert (Lx : xo_index x <= (if idx <? xo_index x then xo_index x else idx)) by (destruct (Z.ltb_spec idx (xo_index x)); lia).
        intros y Hy. apply in_app_or in Hy. destruct Hy as [Hy|Hy]; [specialize (Hm y Hy); lia|].
        destruct (xobjs_parse v) as [|z0 l0 _] eqn:El using rev_ind; [destruct Hy|].
        assert (z0 = x). { rewrite app_assoc in E0. apply app_inj_tail in E0. apply E0. }
        subst z0. specialize (Gl l0 x y eq_refl Hy). lia. }
      assert (Hi' : 0 <= (if idx <? xo_index x then xo_index x else idx)) by (destruct (idx <? xo_index x); [apply Wx|auto]).
      destruct (IH _ _ _ _ _ _ G' (proj1 Wx) Hi' Hw' Hm' S) as (A1 & A2 & A3 & A4 & A5).
      split; [auto|]. split; [auto|]. split; [auto|]. split; [auto|]. intros y. rewrite A5. apply Fin.
Qed.

(** ** Adding what is missing *)
Lemma same_iff : forall a b, same_name a b = true <-> xo_char a = xo_char b /\ xo_index a = xo_index b.
Proof. intros a b. unfold same_name. rewrite andb_true_iff, beqb_eq, Z.eqb_eq. tauto. Qed.

Lemma add_facts : forall xs acc, exists b, addMissing acc xs = acc ++ b /\ (forall x, In x b -> In x xs) /\
  forall x, In x xs -> exists e, In e (addMissing acc xs) /\ same_name e x = true.
Proof.
  unfold addMissing. induction xs as [|x xs IH]; intros acc.
  - exists []. cbn [fold_left]. rewrite app_nil_r. split; [reflexivity|]. split; [intros y []|intros y []].
  - cbn [fold_left]. destruct (existsb (fun e => same_name e x) acc) eqn:Ex.
    + destruct (IH acc) as (b & E & H1 & H2). exists b. split; [auto|]. split; [intros y Hy; right; auto|].
      intros y [<-|Hy]; [|auto]. apply existsb_exists in Ex. destruct Ex as (e & He & Se). exists e. split; [|auto].
      rewrite E. apply in_or_app. auto.
    + destruct (IH (acc ++ [x])) as (b & E & H1 & H2). exists (x :: b). rewrite E, <- app_assoc. split; [reflexivity|].
      split; [intros y [<-|Hy]; [left; auto|right; auto]|]. rewrite E, <- app_assoc in H2. cbn [app] in *.
      intros y [<-|Hy]; [|auto]. exists x. split; [apply in_or_app; right; left; auto|]. apply same_iff. auto.
Qed.

(** ** The entries afterwards *)
Lemma xkept : forall xps xs ys k n, Forall2 reads xps xs -> (forall x, In x xs -> in_int (xo_obj x)) -> font_named xps k n -> font_named (map xprop (xs ++ ys)) k n.
Proof.
  intros xps xs ys k n R Hi (v & (a & b & -> & H) & I'). revert xs R Hi. induction a as [|q a IH]; intros xs R Hi.
  - cbn [app] in R. inversion R as [|? x ? xs' (R1 & R2 & _) R']; subst. cbn [pkey pval] in *. assert (xo_obj x = n) by congruence. subst n.
    exists (refText (xo_obj x)). split; [|apply readObjID_ref; apply Hi; left; auto].
    exists [], (map xprop (xs' ++ ys)). split; [|intros ? []]. cbn [app map]. unfold xprop at 1. rewrite R1. reflexivity.
  - cbn [app] in R. inversion R as [|? x ? xs' (R1 & R2 & _) R']; subst. destruct (IH) with (xs := xs') as (v' & V & I''); auto.
    + intros q' Hq'. apply H. right. auto.
    + intros y Hy. apply Hi. right. auto.
    + exists v'. split; [|auto]. change (map xprop ((x :: xs') ++ ys)) with ([xprop x] ++ map xprop (xs' ++ ys)). apply value_app_r; [|auto].
      intros (w & [X|[]]). unfold xprop in X. apply (H q); [left; auto|]. congruence.
Qed.

Lemma value_first : forall ps k, has_key ps k -> exists v, value ps k v /\ In (mkProp k v) ps.
Proof.
  intros ps k H. destruct (getPropByKey k ps) as [q|] eqn:G.
  - apply get_value in G. destruct G as (Ek & V). exists (pval q). split; [auto|]. destruct V as (a & b & -> & _). apply in_or_app. right. left. reflexivity.
  - exfalso. eapply (proj2 (key_none ps k)); eauto.
Qed.

(** A new image among entries with smaller numbers. *)
Lemma xnew : forall xs imgs ch idx x, Forall ltr ch -> 0 <= idx ->
  (forall y, In y xs -> wx y /\ (xo_index y <= idx \/ In y (newXobjs imgs ch idx))) ->
  (exists e, In e xs /\ same_name e x = true) -> In x (newXobjs imgs ch idx) -> in_int (xo_obj x) -> font_named (map xprop xs) (xo_name x) (xo_obj x).
Proof.
  intros xs imgs ch idx x Hc Hi Hx (e & He & Se) Hn Ho. apply same_iff in Se. destruct Se as (Sc & Si).
  assert (Nx : wx x) by (destruct (newx_char _ _ _ _ Hn) as (E1 & E2 & _); split; [rewrite E1; auto|lia]).
  assert (U : forall y, In y xs -> xo_name y = xo_name x -> y = x).
  { intros y Hy E. destruct (Hx y Hy) as (Wy & [Ly|Ny]).
    - exfalso. destruct (wx_inj y x Wy Nx E) as (_ & Ei). destruct (newx_char _ _ _ _ Hn) as (_ & L & _). lia.
    - pose proof (newx_nodup imgs ch idx) as N. clear - N Ny Hn E. induction (newXobjs imgs ch idx) as [|z l IH]; [destruct Ny|].
      cbn [map] in N. inversion N as [|? ? N1 N2]; subst. destruct Ny as [->|Ny], Hn as [->|Hn]; auto.
      + exfalso. apply N1. rewrite E. apply in_map. auto.
      + exfalso. apply N1. rewrite <- E. apply in_map. auto. }
  destruct (value_first (map xprop xs) (xo_name x)) as (v & V & Hv).
  { exists (refText (xo_obj e)). assert (Ee : xo_name e = xo_name x) by (unfold xo_name; rewrite Sc, Si; reflexivity).
    rewrite <- Ee. change (mkProp (xo_name e) (refText (xo_obj e))) with (xprop e). apply in_map. auto. }
  exists v. split; [auto|]. apply in_map_iff in Hv. destruct Hv as (y & E & Hy). unfold xprop in E.
  assert (Ey : y = x) by (apply U; [auto|congruence]). subst y. replace v with (refText (xo_obj x)) by congruence. apply readObjID_ref. auto.
Qed.
