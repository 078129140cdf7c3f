(** The objects GoPdf writes make a document that pdft can add fonts and images
    to. *)
From Coq Require Import String List ZArith Lia Bool FinFun.
From Coq.Floats Require Import SpecFloat.
From Verif Require Import Base BaseProofs Output OutputSpec OutputProofs Props PropsFlat PropsWrite PropsNorm PropsRefs PropsRead PropsSpec PdfData PagesSpec PagesProofs PagesEdit InjectSpec ImgSpec ContentSpec SaveSpec Float64 TextNumbers Parse ParseSpec ParsePages GoPdf GoPdfOpen GoPdfOpenDict GoPdfOpenPages GoPdfReadyDict GoPdfReadyStream.
Open Scope Z_scope.
Open Scope list_scope.

(** ** Characters *)

(** No g, no r, no s, no slash. *)
Definition lowc (c : Z) : Prop := c <> 47 /\ (c <= 102 \/ c = 110).
Lemma low_lit : forall s, forallb (fun c => negb (c =? 47) && ((c <=? 102) || (c =? 110))) s = true -> Forall lowc s.
Proof. intros s H. apply Forall_forall. intros c Hc. rewrite forallb_forall in H. apply H in Hc. unfold lowc. lia. Qed.
Lemma itoa_low : forall n, Forall lowc (itoa n).
Proof. intros n. eapply Forall_impl; [|apply itoa_chars]. intros c H. unfold num_char, lowc in *. lia. Qed.
Lemma utoa_low : forall n, 0 <= n -> Forall lowc (utoa n).
Proof. intros n H. eapply Forall_impl; [|apply utoa_Forall; exact H]. intros c Hc. cbv beta in Hc. unfold lowc. lia. Qed.
Lemma fixed2_low : forall n, 0 <= n -> Forall lowc (fixed2 n).
Proof.
  intros n H. unfold fixed2. apply Forall_app. split; [apply utoa_low; apply Z.div_pos; lia|]. apply Forall_app. split; [apply low_lit; reflexivity|].
  unfold pad0. apply Forall_app. split; [|apply utoa_low; apply Z.mod_pos_bound; lia]. apply Forall_forall. intros c Hc. apply repeat_spec in Hc. subst c. unfold lowc. lia.
Qed.
Lemma fmt_low : forall x, Forall lowc (fmt2 x).
Proof.
  assert (S : forall s : bool, Forall lowc (if s then B"-" else [])) by (intros []; [apply low_lit; reflexivity|constructor]).
  intros [s|s| |s m e]; cbn [fmt2].
  - apply Forall_app; split; [apply S|apply fixed2_low; lia].
  - destruct s; apply low_lit; reflexivity.
  - apply low_lit; reflexivity.
  - apply Forall_app. split; [apply S|]. apply fixed2_low. destruct (hundredths_near s m e) as (H & _). exact H.
Qed.
Lemma ref_low : forall n, Forall lowc (refText n).
Proof. intros n. apply Forall_app. split; [apply itoa_low|apply low_lit; reflexivity]. Qed.
Lemma box_low : forall w h, Forall lowc (box_text w h).
Proof. intros w h. unfold box_text. repeat (apply Forall_app; split); try apply fmt_low; apply low_lit; reflexivity. Qed.
Lemma kids_low : forall l, Forall lowc (B"[" ++ spaced l ++ B"]").
Proof.
  intros l. apply Forall_app. split; [apply low_lit; reflexivity|]. apply Forall_app. split; [|apply low_lit; reflexivity]. unfold spaced. induction l as [|i l IH]; [constructor|]. cbn [flat_map].
  repeat (apply Forall_app; split); try exact IH; try apply itoa_low; apply low_lit; reflexivity.
Qed.
(** A text without the character [x]. *)
Lemma low_no : forall x s, Forall lowc s -> 102 < x /\ x <> 110 -> ~ In x s.
Proof. intros x s H Hx O. rewrite Forall_forall in H. apply H in O. unfold lowc in O. lia. Qed.
Lemma text_no : forall x ps, x <> 47 -> x <> 32 -> x <> 10 -> Forall (fun q => ~ In x (pkey q) /\ ~ In x (pval q)) ps -> ~ In x (text_of ps).
Proof.
  intros x ps H1 H2 H3 H O. unfold text_of in O. apply in_flat_map in O. destruct O as (q & Hq & O). rewrite Forall_forall in H. destruct (H q Hq) as (N1 & N2).
  rewrite !in_app_iff in O. cbn [In] in O. intuition lia.
Qed.
Lemma mention_no : forall x ps name, In x name -> ~ In x (text_of ps) -> ~ mentions ps name.
Proof. intros x ps name H N (a & b & E). apply N. rewrite E, !in_app_iff. auto. Qed.

Ltac lit_no := let O := fresh in intros O; vm_compute in O; repeat (destruct O as [O|O]; [discriminate O|]); exact O.

Lemma catalog_mentions : ~ mentions (map ent_prop catalog_ents) (B"/Parent").
Proof. apply (mention_no 114); [vm_compute; auto 10|]. lit_no. Qed.
Lemma pages_mentions : forall w h n l, ~ mentions (map ent_prop (pages_ents w h n l)) (B"/Parent").
Proof.
  intros w h n l. apply (mention_no 114); [vm_compute; auto 10|]. apply text_no; try lia. unfold pages_ents. cbn [map].
  constructor; [split; cbn [ent_prop ekey eval pkey pval]; lit_no|]. constructor; [split; cbn [ent_prop ekey eval pkey pval]; lit_no|].
  constructor; [split; cbn [ent_prop ekey eval pkey pval]; [lit_no|apply low_no; [apply box_low|lia]]|].
  constructor; [split; cbn [ent_prop ekey eval pkey pval]; [lit_no|apply low_no; [apply itoa_low|lia]]|].
  constructor; [split; cbn [ent_prop ekey eval pkey pval]; [lit_no|apply low_no; [apply kids_low|lia]]|constructor].
Qed.
Lemma page_mentions : forall c opt, ~ mentions (map ent_prop (page_ents c opt)) (B"/Pages").
Proof.
  intros c opt (a & b & E).
  assert (T : exists r, text_of (map ent_prop (page_ents c opt)) = B"/Type " ++ [10] ++ B"/Page " ++ 10 :: r /\ ~ In 103 r).
  { eexists. split; [unfold page_ents, text_of; cbn [app map flat_map ent_prop ekey eval pkey pval]; reflexivity|].
    match goal with |- ~ In 103 ?r => change r with (text_of (map ent_prop ([mkEnt true (B"Parent") (refText 2); mkEnt true (B"Resources") (refText 3); content_ent c] ++ if opt_empty opt then [] else [mkEnt false (B"MediaBox") (box_text (fst opt) (snd opt))]))) end.
    apply text_no; try lia. apply Forall_map, Forall_app. split.
    - constructor; [split; lit_no|]. constructor; [split; lit_no|]. constructor; [destruct c as [c|]; [split; [lit_no|]; cbn [content_ent ent_prop ekey eval pkey pval]; apply low_no; [apply ref_low|lia]|split; lit_no]|constructor].
    - destruct (opt_empty opt); constructor; [|constructor]. split; [lit_no|]. cbn [ent_prop ekey eval pkey pval]. apply low_no; [apply box_low|lia]. }
  destruct T as (r & T & Nr). rewrite T in E.
  assert (NO : no_occ (B"/Pages") ((B"/Type " ++ [10] ++ B"/Page ") ++ 10 :: r)).
  { apply no_occ_sep; [discriminate|vm_compute; intuition discriminate|apply contains_false; reflexivity|].
    intros k O. apply (occ_in_all _ _ _ 103) in O; [auto|]. vm_compute. auto 10. }
  apply (NO (List.length a)). exists a, b. split; [rewrite <- E, <- !app_assoc; reflexivity|reflexivity].
Qed.

(** ** The document *)

Section Ready.
Variables (bs : list bytes) (w h : f64) (l : list (Z * option Z)) (ops : list (f64 * f64)) (fs : list relfont) (xs : list Z).
Hypothesis Hlen : Z.of_nat (List.length bs) < 2 ^ 62.
Hypothesis H0 : nth_error bs 0 = Some catalog_build.
Hypothesis H1 : nth_error bs 1 = Some (pages_build w h (Z.of_nat (List.length l)) (flat_map g_ref (map fst l))).
Hypothesis H2 : nth_error bs 2 = Some (procset_build fs xs 0).
Hypothesis Hx : Z.of_nat (List.length xs) < 2 ^ 62.
Hypothesis Hxs : Forall (fun x => 0 <= x < Z.of_nat (List.length bs)) xs.
Hypothesis HP : Forall2 (fun x opt => 3 <= fst x /\ nth_error bs (Z.to_nat (fst x)) = Some (page_build (flat_map g_ref (one (snd x))) (B"3 0 R") opt)) l ops.
Hypothesis HN : NoDup (map fst l).
Hypothesis Hne : l <> [].
(** Objects that came later. *)
Variable extra : list obj.
Hypothesis HU : NoDup (map oid (opened bs ++ extra)).

Let os := opened bs ++ extra.
Let p := mkPdf 1 os.
Let kids := map (fun i => i + 1) (map fst l).
Let ts := map Leaf kids.
Let fl := font_names fs.
Let xl := image_names xs 0.
Let rps := res_props fl xl.
Let fi : Z -> res_place := fun _ => ResAt 3 rps (FontIn (props_of_names fl)).
Let xi : Z -> res_place := fun _ => ResAt 3 rps (FontIn (props_of_names xl)).

Lemma r_unique : NoDup (map oid os).
Proof. exact HU. Qed.
Lemma gotx : forall k b, nth_error bs k = Some b -> getObj (1 + Z.of_nat k) os = Ok (mkObj (1 + Z.of_nat k) ([10] ++ b)).
Proof.
  intros k b E. apply opened_at in E. change (1 + Z.of_nat k) with (oid (mkObj (1 + Z.of_nat k) ([10] ++ b))) at 1. apply getObj_one; [exact HU|].
  unfold os. apply in_or_app. left. eapply nth_error_In; eauto.
Qed.
Lemma r_version : forall id o o', getObj id os = Ok o -> version os id o' -> o' = o.
Proof.
  intros id o o' G (a & b & E & Ei & _). assert (X : getObj (oid o') os = Ok o') by (apply getObj_one; [apply r_unique|rewrite E; apply in_elt]). rewrite Ei in X. congruence.
Qed.
Lemma r_dict : forall k b ps, nth_error bs k = Some b -> readProperties ([10] ++ b) = Ok ps -> dict os (1 + Z.of_nat k) ps.
Proof. intros k b ps E R. exists (mkObj (1 + Z.of_nat k) ([10] ++ b)). split; [apply get_version, gotx; exact E|exact R]. Qed.
Lemma r_dict_is : forall k b ps ps', nth_error bs k = Some b -> readProperties ([10] ++ b) = Ok ps -> dict os (1 + Z.of_nat k) ps' -> ps' = ps.
Proof. intros k b ps ps' E R (o & Vo & En). pose proof (r_version _ _ _ (gotx _ _ E) Vo) as X. subst o. unfold entries in En. cbn [odata] in En. congruence. Qed.
Lemma leaves_kids : flat_map leaves ts = kids.
Proof. unfold ts. clear. induction kids as [|k ks IH]; [reflexivity|]. cbn [map flat_map leaves app]. rewrite IH. reflexivity. Qed.
Lemma ids_kids : flat_map tree_ids ts = kids.
Proof. unfold ts. clear. induction kids as [|k ks IH]; [reflexivity|]. cbn [map flat_map tree_ids app]. rewrite IH. reflexivity. Qed.
Lemma tids_kids : map tid ts = kids.
Proof. unfold ts. rewrite map_map. apply map_id. Qed.
Lemma kid_at : forall k, In k kids -> exists x opt, In x l /\ k = 1 + fst x /\ 3 <= fst x /\ nth_error bs (Z.to_nat (fst x)) = Some (page_build (flat_map g_ref (one (snd x))) (B"3 0 R") opt).
Proof.
  intros k Hk. unfold kids in Hk. rewrite map_map in Hk. apply in_map_iff in Hk. destruct Hk as (x & <- & Hx0). pose proof HP as HQ. clear -HQ Hx0.
  induction HQ as [|y o l' ops' (Q1 & Q3) _ IH]; [destruct Hx0|]. destruct Hx0 as [->|Hx0].
  - exists x, o. split; [left; reflexivity|]. split; [lia|]. auto.
  - destruct (IH Hx0) as (z & o' & A & A2). exists z, o'. split; [right; exact A|exact A2].
Qed.
Lemma kid_page : forall k, In k kids -> exists x opt, In x l /\ k = 1 + fst x /\ getObj k os = Ok (mkObj k ([10] ++ page_build (flat_map g_ref (one (snd x))) (B"3 0 R") opt)) /\
  readProperties ([10] ++ page_build (flat_map g_ref (one (snd x))) (B"3 0 R") opt) = Ok (map ent_prop (page_ents (snd x) opt)).
Proof.
  intros k Hk. destruct (kid_at k Hk) as (x & opt & Hx0 & -> & H3 & N). exists x, opt. split; [exact Hx0|]. split; [reflexivity|]. split.
  - pose proof (gotx _ _ N) as G. rewrite Z2Nat.id in G by lia. exact G.
  - apply page_props.
Qed.
Lemma kids_int : Forall in_int kids.
Proof.
  apply Forall_forall. intros k Hk. destruct (kid_at k Hk) as (x & opt & _ & -> & H3 & N). assert (L : (Z.to_nat (fst x) < List.length bs)%nat) by (apply nth_error_Some; congruence).
  unfold in_int, int64_min, int64_max. lia.
Qed.
Lemma kids_read : readObjIDs (B"[" ++ spaced (map fst l) ++ B"]") = Ok kids.
Proof. apply kids_ids; [destruct l; [congruence|discriminate]|exact kids_int]. Qed.
Lemma kids_four : forall k, In k kids -> 4 <= k.
Proof. intros k Hk. destruct (kid_at k Hk) as (x & opt & _ & -> & H3 & _). lia. Qed.
Lemma kids_nodup : NoDup (1 :: 2 :: kids).
Proof.
  constructor; [intros [O|O]; [discriminate O|apply kids_four in O; lia]|]. constructor; [intros O; apply kids_four in O; lia|].
  unfold kids. apply FinFun.Injective_map_NoDup; [intros a c; lia|exact HN].
Qed.
Lemma r_res : dict os 3 rps.
Proof. apply (r_dict 2 _ _ H2). apply procset_props. Qed.

Lemma array_type : forall s, propertyType (B"[" ++ s ++ B"]") = PArray.
Proof.
  intros s. unfold propertyType. rewrite trim_space_id.
  - change (B"[" ++ s ++ B"]") with (91 :: s ++ [93]). unfold blen. cbn [List.length]. rewrite app_length. cbn [List.length]. cbn [prefixb].
    change (prefixb (B"<<") (91 :: s ++ [93])) with false. rewrite andb_false_r. change (prefixb (B"[") (91 :: s ++ [93])) with true. rewrite andb_true_r.
    destruct (Z.ltb_spec 1 (Z.of_nat (S (List.length s + 1)))); [reflexivity|lia].
  - change (B"[" ++ s ++ B"]") with (91 :: s ++ [93]). apply trimmed_ascii; auto; unfold ascii; lia.
Qed.

Lemma key_not : forall k es, forallb (fun e => negb (beqb (ekey e) k)) es = true -> ~ has_key (map ent_prop es) k.
Proof.
  intros k es H (v & O). apply in_map_iff in O. destruct O as (e & E & He). rewrite forallb_forall in H. specialize (H e He).
  assert (X : ekey e = k) by (unfold ent_prop in E; congruence). apply (proj2 (beqb_eq _ _)) in X. rewrite X in H. discriminate H.
Qed.
Lemma page_key_not : forall k c opt, forallb (fun e => negb (beqb (ekey e) k)) (page_ents c (fofz 1, fofz 1)) = true -> ~ has_key (map ent_prop (page_ents c opt)) k.
Proof.
  intros k c opt H. apply key_not. unfold page_ents in *. change (opt_empty (fofz 1, fofz 1)) with false in H. rewrite forallb_app in *. apply andb_true_iff in H. destruct H as (A & A2).
  apply andb_true_iff. split; [exact A|]. destruct (opt_empty opt); [reflexivity|exact A2].
Qed.
Lemma page_once : forall k v c opt a b, page_ents c opt = a ++ mkEnt true k v :: b -> forallb (fun e => negb (beqb (ekey e) k)) (a ++ b) = true -> once (map ent_prop (page_ents c opt)) k v.
Proof.
  intros k v c opt a b E H. rewrite forallb_app in H. apply andb_true_iff in H. destruct H as (A & A2). exists (map ent_prop a), (map ent_prop b). rewrite E, map_app.
  split; [reflexivity|]. split; apply key_not; assumption.
Qed.

Lemma r_tidy : forall K nl, (K = B"Font" /\ nl = fl) \/ (K = B"XObject" /\ nl = xl) -> tidy K p 2 ts (fun _ => ResAt 3 rps (FontIn (props_of_names nl))).
Proof.
  intros K nl HK. assert (LN : Forall lettered nl) by (destruct HK as [(_ & ->)|(_ & ->)]; [apply fonts_lettered|apply images_lettered]).
  constructor; unfold p; cbn [objs root].
  - apply r_unique.
  - rewrite ids_kids. apply kids_nodup.
  - exists (map ent_prop catalog_ents), (refText 2). split; [apply (r_dict 0 _ _ H0), catalog_props|].
    split; [exists [mkProp (B"Type") []; mkProp (B"Catalog") []], []; split; [reflexivity|split; intros (v & O); cbn [In] in O; intuition discriminate]|].
    split; [apply readObjID_ref; unfold in_int, int64_min, int64_max; lia|]. split; [apply catalog_mentions|]. destruct HK as [(-> & _)|(-> & _)]; apply key_not; reflexivity.
  - exists (map ent_prop (pages_ents w h (Z.of_nat (List.length l)) (map fst l))), (B"[" ++ spaced (map fst l) ++ B"]"). split; [apply (r_dict 1 _ _ H1), pages_props|].
    split; [eexists (map ent_prop [mkEnt false (B"Type") []; mkEnt false (B"Pages") []; mkEnt false (B"MediaBox") (box_text w h); mkEnt true (B"Count") (itoa (Z.of_nat (List.length l)))]), []; split; [reflexivity|split; [apply key_not; reflexivity|intros (v & [])]]|].
    split; [apply array_type|]. split; [rewrite tids_kids; apply kids_read|]. split; [apply pages_mentions|]. destruct HK as [(-> & _)|(-> & _)]; apply key_not; reflexivity.
  - intros t Ht. unfold ts in Ht. apply in_map_iff in Ht. destruct Ht as (k & <- & _). left. eauto.
  - intros id ks Ht. unfold ts in Ht. apply in_map_iff in Ht. destruct Ht as (k & E & _). discriminate E.
  - intros id Hid. rewrite leaves_kids in Hid. destruct (kid_page id Hid) as (x & opt & Hx0 & Ek & G & RP). exists (map ent_prop (page_ents (snd x) opt)).
    split; [split; [exists (mkObj id ([10] ++ page_build (flat_map g_ref (one (snd x))) (B"3 0 R") opt)); split; [apply get_version; exact G|exact RP]|]|].
    + exists (refText 3). split; [|split; [apply readObjID_ref; unfold in_int, int64_min, int64_max; lia|split; [apply r_res|]]].
      * eapply (page_once (B"Resources") (refText 3) (snd x) opt [mkEnt false (B"Type") []; mkEnt false (B"Page") []; mkEnt true (B"Parent") (refText 2)]); [unfold page_ents; cbn [app]; reflexivity|]. destruct (opt_empty opt), (snd x); reflexivity.
      * exists (B"<<" ++ named nl ++ B">>"). split; [|split; [apply dict_type|apply names_props; exact LN]].
        split; [exists (B"<<" ++ named nl ++ B">>"); destruct HK as [(-> & ->)|(-> & ->)]; [right; left|right; right; left]; reflexivity|]. destruct HK as [(-> & ->)|(-> & ->)];
          intros w0 O; unfold rps, res_props, res_ents in O; cbn [map In] in O; destruct O as [O|[O|[O|[]]]]; unfold ent_prop in O; cbn [ekey eval] in O; first [discriminate O|congruence].
    + split; [destruct HK as [(-> & _)|(-> & _)]; apply page_key_not; destruct (snd x); reflexivity|]. split; [apply page_mentions|]. apply res_mentions; [apply fonts_lettered|apply images_lettered].
  - intros id r f id' _ _. cbn [res_objects font_objects]. split; [|intros []]. intros [<-|[]] O. rewrite ids_kids in O. destruct O as [O|[O|O]]; try discriminate O. apply kids_four in O. lia.
Qed.

Lemma r_tree : page_tree p (Node 2 ts).
Proof.
  split.
  - exists (mkObj 1 ([10] ++ catalog_build)), (map ent_prop catalog_ents), (refText 2). unfold p. cbn [root objs]. split; [apply get_version; exact (gotx 0 _ H0)|].
    split; [apply catalog_props|]. split; [exists [mkProp (B"Type") []; mkProp (B"Catalog") []], []; split; [reflexivity|]; intros q [<-|[<-|[]]]; discriminate|].
    change (readObjID (refText 2) = Ok 2). apply readObjID_ref. unfold in_int, int64_min, int64_max. lia.
  - eapply h_node with (v := B"[" ++ spaced (map fst l) ++ B"]"); [apply get_version; exact (gotx 1 _ H1)|apply pages_props| | |].
    + split; [eexists; right; left; reflexivity|]. split; [apply key_not; reflexivity|].
      eexists (map ent_prop [mkEnt false (B"Type") []; mkEnt false (B"Pages") []; mkEnt false (B"MediaBox") (box_text w h); mkEnt true (B"Count") (itoa (Z.of_nat (List.length l)))]), []. split; [reflexivity|].
      intros q Hq. cbn [map In] in Hq. destruct Hq as [<-|[<-|[<-|[<-|[]]]]]; discriminate.
    + left. rewrite tids_kids. apply kids_read.
    + unfold ts. apply Forall_map, Forall_forall. intros k Hk. destruct (kid_page k Hk) as (x & opt & Hx0 & Ek & G & RP). eapply h_leaf; [apply get_version; exact G|exact RP|].
      split; [eexists; right; left; reflexivity|]. intros (O & _). revert O. apply page_key_not. destruct (snd x); reflexivity.
Qed.

Theorem r_ready : ready_document p 2 ts fi xi.
Proof.
  pose proof (fonts_lettered fs) as LF. pose proof (images_lettered xs 0) as LX.
  assert (WO : exists o, version (objs p) 3 o /\ rewritable (odata o)).
  { exists (mkObj 3 ([10] ++ procset_build fs xs 0)). split; [apply get_version; exact (gotx 2 _ H2)|]. apply procset_writable. }
  constructor.
  - apply r_tidy. left. auto.
  - apply r_tidy. right. auto.
  - intros id ps [-> | ->] D.
    + apply (r_dict_is 0 _ _ _ H0 catalog_props) in D. subst ps. apply key_not. reflexivity.
    + apply (r_dict_is 1 _ _ _ H1 (pages_props _ _ _ _)) in D. subst ps. apply key_not. reflexivity.
  - apply r_tree.
  - intros L _ _. unfold writable_page, fi. split; [exact WO|]. split; [apply res_seen|]. split; [apply names_regular; exact LF|]. right. apply res_balanced; assumption.
  - intros L fps q a b _ E Hq. unfold fi in E. cbn [offered] in E. assert (X : fps = props_of_names fl) by congruence. subst fps. unfold props_of_names in Hq. apply in_map_iff in Hq.
    destruct Hq as (e & <- & He). cbn [pkey]. apply lettered_pages. unfold fl in He. rewrite Forall_forall in LF. auto.
  - destruct (images_numbered xs Hx) as (I1 & I2). { eapply Forall_impl; [|exact Hxs]. intros c Hc. cbv beta in Hc. lia. }
    eapply (pic_shared p 2 ts xi 3 rps (props_of_names xl)); [intros L _; right; reflexivity|exact I1|exact I2|]. split; [exact WO|]. split; [apply r_res|apply res_seen].
Qed.

(** The content streams. *)
Lemma r_source : forall inflate k i c opt b ps raw s, In k kids -> k = 1 + i -> nth_error bs (Z.to_nat i) = Some (page_build (g_ref c) (B"3 0 R") opt) ->
  3 <= c -> nth_error bs (Z.to_nat c) = Some b -> stream_text os ([10] ++ b) ps raw -> plain_start raw -> decodes inflate ps raw s -> source inflate os k (Some (1 + c, s)).
Proof.
  intros inflate k i c opt b ps raw s Hk Ek Np H3 Nb St Pl De. pose proof (gotx _ _ Nb) as Gb. rewrite Z2Nat.id in Gb by lia.
  assert (K3 : 4 <= k) by (apply kids_four; exact Hk). pose proof (gotx _ _ Np) as Gp. rewrite Z2Nat.id in Gp by lia. rewrite <- Ek in Gp.
  eapply src_some with (v := refText (c + 1)) (co := mkObj (1 + c) ([10] ++ b)); [apply get_version; exact Gp| | | |apply get_version; exact Gb|exact St|exact Pl|exact De].
  - pose proof (page_props (Some c) opt) as PP. cbn [one flat_map] in PP. rewrite app_nil_r in PP. exact PP.
  - eexists (map ent_prop [mkEnt false (B"Type") []; mkEnt false (B"Page") []; mkEnt true (B"Parent") (refText 2); mkEnt true (B"Resources") (refText 3)]), _.
    split; [unfold page_ents; cbn [app map content_ent]; reflexivity|]. intros q Hq. rewrite in_app_iff in Hq. destruct Hq as [Hq|Hq].
    + cbn [map In] in Hq. destruct Hq as [<-|[<-|[<-|[<-|[]]]]]; discriminate.
    + destruct (opt_empty opt); cbn [map In] in Hq; [destruct Hq|]. destruct Hq as [<-|[]]. discriminate.
  - replace (c + 1) with (1 + c) by lia. apply readObjID_ref. assert (L : (Z.to_nat c < List.length bs)%nat) by (apply nth_error_Some; congruence).
    unfold in_int, int64_min, int64_max. lia.
Qed.
End Ready.
