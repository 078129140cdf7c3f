(** Page tree and page sizes that pdft finds in a file of the writer GoPdf. *)
From Coq Require Import String List ZArith Lia Bool FinFun.
From Coq.Floats Require Import SpecFloat.
From Verif Require Import Base BaseProofs Output OutputSpec PdfSyntax Float64 Props PropsSpec PropsRefs PropsWrite PdfData Parse ParseSpec ParsePages GoPdf GoPdfSpec GoPdfFile GoPdfOpenSpec GoPdfOpen GoPdfOpenDict.
Open Scope Z_scope.
Open Scope list_scope.

Section Bodies.
Variables (bs : list bytes) (w h : f64) (n : Z) (l : list Z) (ops : list (f64 * f64)).
Hypothesis Hlen : Z.of_nat (List.length bs) < 2 ^ 62.
Hypothesis H0 : nth_error bs 0 = Some catalog_build.
Hypothesis H1 : nth_error bs 1 = Some (pages_build w h n (flat_map g_ref l)).
Definition page_body (i : Z) (opt : f64 * f64) : Prop :=
  0 <= i /\ exists c, nth_error bs (Z.to_nat i) = Some (page_build (flat_map g_ref (one c)) (B"3 0 R") opt).
Hypothesis HP : Forall2 page_body l ops.

Lemma opened_ids : forall (x : list bytes), map oid (opened x) = map Z.of_nat (seq 1 (List.length x)).
Proof.
  intros x. unfold opened. rewrite map_map. cbn [oid]. generalize 1%nat. induction x as [|b x IH]; intros k; [reflexivity|].
  cbn [List.length seq combine map fst]. f_equal. apply IH.
Qed.
Lemma opened_at : forall (x : list bytes) k b, nth_error x k = Some b -> nth_error (opened x) k = Some (mkObj (1 + Z.of_nat k) ([10] ++ b)).
Proof.
  intros x k b E. destruct (nth_error (opened x) k) as [o|] eqn:Eo.
  - destruct (opened_nth x k o Eo) as (b' & E' & ->). congruence.
  - apply nth_error_None in Eo. rewrite opened_len in Eo. apply nth_error_None in Eo. congruence.
Qed.
Lemma got : forall k b, nth_error bs k = Some b -> getObj (1 + Z.of_nat k) (opened bs) = Ok (mkObj (1 + Z.of_nat k) ([10] ++ b)).
Proof.
  intros k b E. apply opened_at in E. change (1 + Z.of_nat k) with (oid (mkObj (1 + Z.of_nat k) ([10] ++ b))) at 1. apply getObj_one.
  - rewrite opened_ids. apply FinFun.Injective_map_NoDup; [intros x y; lia|apply seq_NoDup].
  - eapply nth_error_In; eauto.
Qed.
Lemma got0 : getObj 1 (opened bs) = Ok (mkObj 1 ([10] ++ catalog_build)).
Proof. exact (got 0 _ H0). Qed.
Lemma got1 : getObj 2 (opened bs) = Ok (mkObj 2 ([10] ++ pages_build w h n (flat_map g_ref l))).
Proof. exact (got 1 _ H1). Qed.
Lemma got_page : forall i opt, page_body i opt -> exists c, getObj (i + 1) (opened bs) = Ok (mkObj (i + 1) ([10] ++ page_build (flat_map g_ref (one c)) (B"3 0 R") opt)) /\ in_int (i + 1).
Proof.
  intros i opt (Hi & c & E). exists c. pose proof (got _ _ E) as G. rewrite Z2Nat.id in G by exact Hi. replace (i + 1) with (1 + i) by lia. split; [exact G|].
  assert (L : (Z.to_nat i < List.length bs)%nat) by (apply nth_error_Some; congruence). unfold in_int, int64_min, int64_max. lia.
Qed.

Lemma visit_page : forall f i opt, page_body i opt -> visit (S f) (opened bs) (i + 1) = Ok [i + 1].
Proof.
  intros f i opt H. destruct (got_page i opt H) as (c & G & _). cbn [visit]. rewrite G. cbn [bind odata]. rewrite page_props.
  unfold page_ents. destruct (opt_empty opt), c; reflexivity.
Qed.

Lemma opens_tree : forall f, getPageObjIDs (S (S f)) (mkPdf 1 (opened bs)) = Ok (map (fun i => i + 1) l).
Proof.
  intros f. unfold getPageObjIDs. cbn [root objs]. rewrite got0. cbn [bind odata]. rewrite catalog_props.
  change (getPropByKey (B"Pages") (map ent_prop catalog_ents)) with (Some (mkProp (B"Pages") (refText 2))). cbv iota beta. cbn [pval].
  change (readObjID (refText 2)) with (@Ok Z 2). cbv iota beta.
  remember (S f) as f1 eqn:Ef. cbn [visit]. rewrite got1. cbn [bind odata]. rewrite pages_props.
  change (getPropByKey (B"Pages") (map ent_prop (pages_ents w h n l))) with (Some (mkProp (B"Pages") [])).
  change (getPropByKey (B"Kids") (map ent_prop (pages_ents w h n l))) with (Some (mkProp (B"Kids") (B"[" ++ spaced l ++ B"]"))). cbv iota beta. cbn [pval].
  destruct (list_eq_dec Z.eq_dec l []) as [->|N]; [reflexivity|].
  rewrite kids_ids; [|exact N|].
  2:{ apply Forall_map. clear -HP Hlen. pose proof HP as HQ; clear HP; induction HQ as [|i o l' ops' P _ IH]; [constructor|]. constructor; [|exact IH]. destruct (got_page i o P) as (_ & _ & R). exact R. }
  clear -HP Hlen Ef. pose proof HP as HQ; clear HP; induction HQ as [|i o l' ops' P _ IH]; [reflexivity|]. cbn [map].
  rewrite Ef at 1. rewrite (visit_page f i o P). cbn [bind]. rewrite IH. reflexivity.
Qed.

Lemma setPages_ok : setPagesObj (mkPdf 1 (opened bs)) = Ok tt.
Proof.
  unfold setPagesObj. cbn [root objs]. rewrite got0. cbn [bind odata]. rewrite catalog_props. reflexivity.
Qed.

(** Sizes. *)
Definition read_size (float : bytes -> res f64) (o : f64 * f64) (x : list f64) : Prop :=
  opt_empty o = false /\ parse_all float [B"0"; B"0"; fmt2 (fst o); fmt2 (snd o)] = Ok x.
Fixpoint counted (k : Z) (xs : list (list f64)) : list (Z * list f64) := match xs with [] => [] | x :: xs => (k, x) :: counted (k + 1) xs end.

Lemma size_step : forall float i opt x k ids acc, page_body i opt -> read_size float opt x ->
  page_sizes float (opened bs) k (i + 1 :: ids) acc = page_sizes float (opened bs) (k + 1) ids (acc ++ [(k, x)]).
Proof.
  intros float i opt x k ids acc P (Eo & R). destruct (got_page i opt P) as (c & G & _). cbn [page_sizes]. rewrite G. cbn [bind odata]. unfold readProperty. rewrite page_props. cbn [bind].
  unfold page_ents. rewrite Eo.
  assert (K : getPropByKey (B"MediaBox") (map ent_prop ([mkEnt false (B"Type") []; mkEnt false (B"Page") []; mkEnt true (B"Parent") (refText 2); mkEnt true (B"Resources") (refText 3); content_ent c] ++ [mkEnt false (B"MediaBox") (box_text (fst opt) (snd opt))])) = Some (mkProp (B"MediaBox") (box_text (fst opt) (snd opt)))) by (destruct c; reflexivity).
  rewrite K. cbn [pval]. destruct (box_floats float (fst opt) (snd opt)) as (T & F). rewrite T, F, R. reflexivity.
Qed.
Lemma size_none : forall float i opt k ids acc, page_body i opt -> opt_empty opt = true -> page_sizes float (opened bs) k (i + 1 :: ids) acc = (acc, Panic).
Proof.
  intros float i opt k ids acc P Eo. destruct (got_page i opt P) as (c & G & _). cbn [page_sizes]. rewrite G. cbn [bind odata]. unfold readProperty. rewrite page_props. cbn [bind].
  unfold page_ents. rewrite Eo. destruct c; reflexivity.
Qed.
Lemma sizes_all : forall float l1 ops1 xs, Forall2 page_body l1 ops1 -> Forall2 (read_size float) ops1 xs -> forall k l2 acc,
  page_sizes float (opened bs) k (map (fun i => i + 1) l1 ++ l2) acc = page_sizes float (opened bs) (k + Z.of_nat (List.length xs)) l2 (acc ++ counted k xs).
Proof.
  intros float l1 ops1 xs P. revert xs. induction P as [|i o l1 ops1 P _ IH]; intros xs R k l2 acc; inversion R as [|? x ? xs' R1 R2]; subst; cbn [map app List.length counted].
  - rewrite app_nil_r. f_equal. lia.
  - rewrite (size_step float i o x) by assumption. rewrite (IH xs' R2). rewrite <- app_assoc. cbn [app]. f_equal. lia.
Qed.
End Bodies.
