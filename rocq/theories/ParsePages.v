(** The pages of a document that was saved and opened again; what makes opening
    fail. *)
From Coq Require Import String List ZArith Lia Bool.
From Coq.Floats Require Import SpecFloat.
From Verif Require Import Base BaseProofs Output OutputSpec OutputProofs Props PropsSpec PdfData Float64 Parse ParseFind ParseFile ParseTrailer ParseProofs ParseSpec ParseFinal.
Open Scope Z_scope.
Open Scope list_scope.

(** The two lists have the same numbers, and what is found under each reads the same. *)
Definition sim (os os' : list obj) : Prop := forall id,
  match getObj id os, getObj id os' with
  | Ok o, Ok o' => readProperties (odata o) = readProperties (odata o')
  | Panic, Panic => True
  | _, _ => False
  end.

Lemma bind_ext : forall A C (x : res A) (f g : A -> res C), (forall a, f a = g a) -> bind x f = bind x g.
Proof. intros A C [a|e| |] f g H; cbn; auto. Qed.

Lemma visit_sim : forall os os', sim os os' -> forall fuel id, visit fuel os id = visit fuel os' id.
Proof.
  intros os os' S. induction fuel as [|f IH]; intros id; [reflexivity|]. cbn [visit].
  specialize (S id). destruct (getObj id os) as [o| | |], (getObj id os') as [o'| | |]; try contradiction; [|reflexivity].
  cbn [bind]. rewrite <- S. destruct (readProperties (odata o)) as [ps| | |]; auto.
  destruct (getPropByKey (B"Pages") ps); auto. destruct (getPropByKey (B"Kids") ps) as [kid|]; auto.
  destruct (readObjIDs (pval kid)) as [ids| | |]; auto.
  induction ids as [|k l IHl]; [reflexivity|]. rewrite IH. apply bind_ext. intros a. rewrite IHl. reflexivity.
Qed.

Lemma pages_sim : forall os os' rt fuel, sim os os' -> getPageObjIDs fuel (mkPdf rt os) = getPageObjIDs fuel (mkPdf rt os').
Proof.
  intros os os' rt fuel S. unfold getPageObjIDs. cbn [root objs].
  pose proof (visit_sim os os' S) as V. specialize (S rt).
  destruct (getObj rt os) as [o| | |], (getObj rt os') as [o'| | |]; try contradiction; [|reflexivity].
  cbn [bind]. rewrite <- S. destruct (readProperties (odata o)) as [ps| | |]; auto.
  destruct (getPropByKey (B"Pages") ps) as [pr|]; auto. destruct (readObjID (pval pr)); auto.
Qed.

Lemma setPages_sim : forall os os' rt, sim os os' -> setPagesObj (mkPdf rt os) = setPagesObj (mkPdf rt os').
Proof.
  intros os os' rt S. unfold setPagesObj. cbn [root objs]. specialize (S rt).
  destruct (getObj rt os) as [o| | |], (getObj rt os') as [o'| | |]; try contradiction; [|reflexivity].
  cbn [bind]. rewrite <- S. reflexivity.
Qed.

Lemma sizes_sim : forall float os os', sim os os' -> forall ids n acc, page_sizes float os n ids acc = page_sizes float os' n ids acc.
Proof.
  intros float os os' S. induction ids as [|id ids IH]; intros n acc; [reflexivity|]. cbn [page_sizes].
  specialize (S id). destruct (getObj id os) as [o| | |], (getObj id os') as [o'| | |]; try contradiction; [|reflexivity].
  cbn [bind]. unfold readProperty. rewrite <- S.
  destruct (readProperties (odata o)) as [ps| | |]; cbn [bind]; auto.
  destruct (getPropByKey (B"MediaBox") ps) as [p|]; auto.
  destruct (propertyType (pval p)); auto. destruct (parseFloatSlice float (pval p)); auto.
Qed.

(** ** With distinct numbers *)
Lemma indices_none : forall id os n, ~ In id (map oid os) -> indices id n os = [].
Proof.
  induction os as [|o os IH]; intros n H; [reflexivity|]. cbn [indices map] in *.
  destruct (Z.eqb_spec (oid o) id); [exfalso; apply H; left; auto|]. apply IH. intros Hin. apply H. right; auto.
Qed.

Lemma indices_one : forall id os n o pre post, os = pre ++ o :: post -> oid o = id -> NoDup (map oid os) ->
  indices id n os = [(n + List.length pre)%nat].
Proof.
  intros id os n o pre. revert n os. induction pre as [|x pre IH]; intros n os post E Ho N; subst os.
  - cbn [app indices map] in *. rewrite (proj2 (Z.eqb_eq _ _) Ho). inversion N; subst.
    rewrite indices_none by auto. cbn [List.length]. f_equal. lia.
  - cbn [app indices map] in *. inversion N as [|? ? N1 N2]; subst.
    destruct (Z.eqb_spec (oid x) (oid o)) as [E|E].
    + exfalso. apply N1. rewrite map_app. apply in_app_iff. right. left. auto.
    + rewrite (IH (S n) _ post eq_refl eq_refl N2). cbn [List.length]. f_equal. lia.
Qed.

Lemma getObj_one : forall os o, NoDup (map oid os) -> In o os -> getObj (oid o) os = Ok o.
Proof.
  intros os o N Ho. apply in_split in Ho. destruct Ho as (pre & post & E). unfold getObj, getIdx.
  rewrite (indices_one (oid o) os 0 o pre post E eq_refl N). cbn [Nat.add]. rewrite E, nth_error_app2 by lia. now rewrite Nat.sub_diag.
Qed.

Lemma getObj_absent : forall os id, ~ In id (map oid os) -> getObj id os = Panic.
Proof. intros os id H. unfold getObj, getIdx. rewrite indices_none by auto. reflexivity. Qed.

Lemma listing_sim : forall os last, 0 <= last -> NoDup (map oid os) -> (forall o, In o os -> 1 <= oid o <= last) ->
  sim (listing os last) os.
Proof.
  intros os last Hl N Hr id.
  assert (N' : NoDup (map oid (listing os last))) by (eapply increasing_nodup; apply listing_sorted).
  destruct (in_dec Z.eq_dec id (map oid os)) as [Hin|Hout].
  - apply in_map_iff in Hin. destruct Hin as (o & <- & Ho). rewrite (getObj_one os o N Ho).
    assert (L : In (stored o) (listing os last)).
    { apply listing_in; auto. exists o. split; [now apply nodup_latest|]. split; auto. }
    pose proof (getObj_one _ _ N' L) as G. cbn [stored oid] in G. rewrite G. apply read_stored.
  - rewrite (getObj_absent os id Hout). rewrite getObj_absent; [exact I|].
    intros Hin. apply Hout. apply in_map_iff in Hin. destruct Hin as (o' & <- & Ho'). apply listing_in in Ho'; auto.
    destruct Ho' as (o & Ho & _ & ->). cbn [stored oid]. apply in_map. now apply latest_in.
Qed.

Lemma reopen_pages : forall float fuel os last rt d r, 0 <= last -> 0 <= rt < 2 ^ 63 ->
  blen (toStream os last rt None) < 10 ^ 10 -> Forall plain_object os ->
  NoDup (map oid os) -> (forall o, In o os -> 1 <= oid o <= last) ->
  PDFParse float fuel (toStream os last rt None) nodoc = (d, r) ->
  (forall id, getObj id (objs (d_pdf d)) = do o <- getObj id os; Ok (stored o)) /\
  getPageObjIDs fuel (d_pdf d) = getPageObjIDs fuel (mkPdf rt os) /\
  (setPagesObj (mkPdf rt os) = Ok tt -> forall ids, getPageObjIDs fuel (mkPdf rt os) = Ok ids ->
     (d_sizes d, r) = page_sizes float os 0 ids []).
Proof.
  intros float fuel os last rt d r Hl Hr HF HP N Hm H.
  pose proof (reopen_objs float fuel os last rt None d r Hl Hr HF HP H) as E. cbn [saved saved_last] in E.
  pose proof (listing_sim os last Hl N Hm) as S.
  assert (N' : NoDup (map oid (listing os last))) by (eapply increasing_nodup; apply listing_sorted).
  rewrite E. split; [|split].
  - intros id. cbn [objs]. destruct (in_dec Z.eq_dec id (map oid os)) as [Hin|Hout].
    + apply in_map_iff in Hin. destruct Hin as (o & <- & Ho). rewrite (getObj_one os o N Ho). cbn [bind].
      assert (L : In (stored o) (listing os last)).
      { apply listing_in; auto. exists o. split; [now apply nodup_latest|]. split; auto. }
      exact (getObj_one _ _ N' L).
    + rewrite (getObj_absent os id Hout). cbn [bind]. apply getObj_absent.
      intros Hin. apply Hout. apply in_map_iff in Hin. destruct Hin as (o' & <- & Ho'). apply listing_in in Ho'; auto.
      destruct Ho' as (o & Ho & _ & ->). cbn [stored oid]. apply in_map. now apply latest_in.
  - apply pages_sim. exact S.
  - intros HS ids HI. destruct (reopen_doc float fuel os last rt None Hl Hr HF HP) as [xs D]. rewrite D in H. clear D.
    cbn [saved saved_last] in H. cbv zeta in H.
    rewrite (setPages_sim _ _ rt S), HS, (pages_sim _ _ rt fuel S), HI in H. cbn [objs] in H.
    rewrite (sizes_sim float _ _ S) in H.
    destruct (page_sizes float os 0 ids []) as [s r3]. injection H as <- <-. reflexivity.
Qed.

(** ** Opening again and saving again changes nothing more *)
Lemma reopen_stable : forall float fuel os last rt en d r d2 r2, 0 <= last -> 0 <= rt < 2 ^ 63 ->
  blen (toStream os last rt en) < 10 ^ 10 -> Forall plain_object (saved os last en) ->
  PDFParse float fuel (toStream os last rt en) nodoc = (d, r) ->
  let f2 := toStream (objs (d_pdf d)) (saved_last last en) rt None in
  blen f2 < 10 ^ 10 ->
  PDFParse float fuel f2 nodoc = (d2, r2) ->
  d_pdf d2 = d_pdf d.
Proof.
  intros float fuel os last rt en d r d2 r2 Hl Hr HF HP H f2 H2 G.
  pose proof (reopen_objs float fuel os last rt en d r Hl Hr HF HP H) as E.
  set (L := listing (saved os last en) (saved_last last en)) in *.
  assert (EL : objs (d_pdf d) = L) by (rewrite E; reflexivity).
  assert (HS : 0 <= saved_last last en) by (apply saved_last_nonneg; auto).
  assert (PL : Forall plain_object L).
  { apply Forall_forall. intros o' Ho'. unfold L in Ho'. apply listing_in in Ho'; auto. destruct Ho' as (o & Ho & _ & ->).
    apply latest_in in Ho. rewrite Forall_forall in HP. specialize (HP _ Ho).
    destruct (trim_space_sub (odata o)) as (u & v & Es).
    assert (G1 : forall p, p <> [] -> ~ In 10 p -> free_of p (odata o) -> free_of p (odata (stored o))).
    { intros p Hp Hn Hf a b Eb. cbn [stored odata] in Eb.
      assert (NO : no_occ p ([] ++ 10 :: trim_space (odata o) ++ 10 :: [])).
      { apply PropsNorm.no_occ_sep; auto; [|apply PropsNorm.no_occ_sep; auto].
        - intros n O. apply occ_len in O. destruct p; [congruence|cbn in O; lia].
        - intros n O. destruct O as (x & y & Ex & _). apply (Hf (u ++ x) (y ++ v)). rewrite Es, Ex, <- !app_assoc. reflexivity.
        - intros n O. apply occ_len in O. destruct p; [congruence|cbn in O; lia]. }
      apply (NO (List.length a)). exists a, b. split; auto. }
    assert (D : forall p, In p [B"xref"; B"trailer"; B"endobj"] -> p <> [] /\ ~ In 10 p).
    { intros p Hp. repeat destruct Hp as [<-|Hp]; try destruct Hp; (split; [discriminate|]); intros Hc; cbn in Hc; repeat destruct Hc as [Hc|Hc]; try lia; auto. }
    destruct HP as (P1 & P2 & P3). unfold plain_object.
    destruct (D (B"xref")) as [? ?]; [left; auto|]. destruct (D (B"trailer")) as [? ?]; [right; left; auto|]. destruct (D (B"endobj")) as [? ?]; [right; right; left; auto|].
    repeat split; apply G1; auto. }
  unfold f2 in *. rewrite EL in *.
  assert (R : forall o, In o L -> oid o <= saved_last last en).
  { intros o' Ho'. unfold L in Ho'. apply listing_in in Ho'; auto. destruct Ho' as (o & _ & Hb & ->). cbn [stored oid]. lia. }
  pose proof (reopen_objs float fuel L (saved_last last en) rt None d2 r2 HS Hr H2 PL G) as E2.
  cbn [saved saved_last] in E2. rewrite E2, E. f_equal.
  rewrite listing_in_order; auto; [|unfold L; apply listing_sorted].
  rewrite <- (map_id L) at 2. apply map_ext_in. intros o' Ho'. unfold L in Ho'. apply listing_in in Ho'; auto. destruct Ho' as (o & _ & _ & ->).
  unfold stored at 1. rewrite stored_trim. reflexivity.
Qed.
