(** Deciding the conditions of InjectSpec.v on a given document. *)
From Coq Require Import String List ZArith Lia Bool.
From Verif Require Import Base BaseProofs Output Props PropsSpec PropsNorm PdfData PagesSpec PagesProofs PagesEdit PagesFinal
  Crawl Inject CrawlVisits InjectMaps InjectItems InjectSpec InjectMarks InjectVisits InjectPages InjectFonts InjectFinal.
Open Scope Z_scope.
Open Scope list_scope.

Definition propsb (os : list obj) (id : Z) : option (list prop) :=
  match getObj id os with Ok o => match readProperties (odata o) with Ok ps => Some ps | _ => None end | _ => None end.
Definition props_of (os : list obj) (id : Z) : list prop := match propsb os id with Some ps => ps | None => [] end.
Lemma propsb_dict : forall os id ps, propsb os id = Some ps -> dict os id ps.
Proof.
  intros os id ps H. unfold propsb in H. destruct (getObj id os) as [o| | |] eqn:G; try discriminate.
  destruct (readProperties (odata o)) eqn:R; try discriminate. inversion H; subst. exists o. split; [apply get_version; auto|exact R].
Qed.

Definition onceb (ps : list prop) (k : bytes) : bool := Nat.eqb (List.length (filter (fun q => beqb (pkey q) k) ps)) 1.
Lemma onceb_once : forall ps k q, onceb ps k = true -> getPropByKey k ps = Some q -> once ps k (pval q).
Proof.
  intros ps k q H G. unfold onceb in H. apply PeanoNat.Nat.eqb_eq in H. apply get_value in G. destruct G as (_ & a & b & E & Fa).
  exists a, b. split; [exact E|]. assert (Na : ~ has_key a k) by (intros (v & Hv); apply (Fa _ Hv); reflexivity). split; [auto|].
  intros (v & Hv). rewrite E, filter_app, app_length in H. cbn [filter] in H. cbn [pkey] in H. rewrite beqb_refl in H. cbn [List.length] in H.
  assert (X : In (mkProp k v) (filter (fun q => beqb (pkey q) k) b)) by (apply filter_In; split; [auto|apply beqb_refl]).
  destruct (filter (fun q => beqb (pkey q) k) b); [destruct X|]. cbn [List.length] in H. lia.
Qed.

Section Key.
Variable K : bytes.

Definition font_of (os : list obj) (rps : list prop) : font_place :=
  match getPropByKey K rps with
  | None => NoFont
  | Some q =>
    match propertyType (pval q) with
    | PObject => match readProperties (pval q) with Ok fps => FontIn fps | _ => NoFont end
    | _ => match readObjID (pval q) with Ok f => match propsb os f with Some fps => FontAt f fps | None => NoFont end | _ => NoFont end
    end
  end.
Definition absentb (ps : list prop) (k : bytes) : bool := match getPropByKey k ps with None => true | _ => false end.
Definition fontb (os : list obj) (rps : list prop) : bool :=
  match font_of os rps with NoFont => absentb rps K | _ => onceb rps K end.
Lemma absent_key : forall ps k, absentb ps k = true -> ~ has_key ps k.
Proof. intros ps k H. apply key_none. unfold absentb in H. destruct (getPropByKey k ps); [discriminate|reflexivity]. Qed.
Lemma fontb_is : forall os rps, fontb os rps = true -> font_is K os rps (font_of os rps).
Proof.
  intros os rps H. unfold fontb in H. destruct (font_of os rps) eqn:E; cbn [font_is].
  - apply absent_key. auto.
  - unfold font_of in E. destruct (getPropByKey K rps) as [q|] eqn:G; [|discriminate]. exists (pval q). split; [apply once_alike, onceb_once; auto|].
    destruct (propertyType (pval q)) eqn:Ty;
      try (exfalso; clear - E; destruct (readObjID (pval q)) as [n| | |]; try discriminate; destruct (propsb os n); discriminate).
    destruct (readProperties (pval q)); try discriminate. inversion E; subst. auto.
  - unfold font_of in E. destruct (getPropByKey K rps) as [q|] eqn:G; [|discriminate]. exists (pval q). split; [apply onceb_once; auto|].
    assert (X : match readObjID (pval q) with Ok f0 => match propsb os f0 with Some fps => FontAt f0 fps | None => NoFont end | _ => NoFont end = FontAt f fps).
    { destruct (propertyType (pval q)); auto. destruct (readProperties (pval q)); discriminate. }
    destruct (readObjID (pval q)) as [f0| | |]; try discriminate. destruct (propsb os f0) eqn:Pb; [|discriminate]. inversion X; subst.
    split; [auto|]. apply propsb_dict. auto.
Qed.

Definition place_of (os : list obj) (id : Z) : res_place :=
  match getPropByKey (B"Resources") (props_of os id) with
  | None => NoRes
  | Some q =>
    match propertyType (pval q) with
    | PObject => match readProperties (pval q) with Ok rps => ResIn rps (font_of os rps) | _ => NoRes end
    | _ => match readObjID (pval q) with Ok r => match propsb os r with Some rps => ResAt r rps (font_of os rps) | None => NoRes end | _ => NoRes end
    end
  end.
Definition pageb (os : list obj) (id : Z) : bool :=
  match propsb os id with
  | None => false
  | Some ps => match place_of os id with
               | NoRes => absentb ps (B"Resources")
               | ResIn rps _ | ResAt _ rps _ => onceb ps (B"Resources") && fontb os rps
               end
  end.
Lemma pageb_is : forall os id, pageb os id = true -> page_is K os id (props_of os id) (place_of os id).
Proof.
  intros os id H. unfold pageb in H. destruct (propsb os id) as [ps|] eqn:Pb; [|discriminate].
  assert (Eps : props_of os id = ps) by (unfold props_of; rewrite Pb; reflexivity). split; [rewrite Eps; apply propsb_dict; auto|].
  destruct (place_of os id) eqn:E; unfold place_of in E; rewrite Eps in E; rewrite Eps.
  - apply absent_key. auto.
  - apply andb_true_iff in H. destruct H as (H1 & H2). destruct (getPropByKey (B"Resources") ps) as [q|] eqn:G; [|discriminate].
    destruct (propertyType (pval q)) eqn:Ty;
      try (exfalso; clear - E; destruct (readObjID (pval q)) as [n| | |]; try discriminate; destruct (propsb os n); discriminate).
    destruct (readProperties (pval q)) eqn:R; try discriminate. inversion E; subst. exists (pval q). split; [apply onceb_once; auto|].
    split; [auto|]. split; [auto|]. apply fontb_is. auto.
  - apply andb_true_iff in H. destruct H as (H1 & H2). destruct (getPropByKey (B"Resources") ps) as [q|] eqn:G; [|discriminate].
    exists (pval q). split; [apply onceb_once; auto|].
    assert (X : match readObjID (pval q) with Ok r0 => match propsb os r0 with Some rps => ResAt r0 rps (font_of os rps) | None => NoRes end | _ => NoRes end = ResAt r rps fp).
    { destruct (propertyType (pval q)); auto. destruct (readProperties (pval q)); discriminate. }
    destruct (readObjID (pval q)) as [r0| | |]; try discriminate. destruct (propsb os r0) eqn:Pb2; [|discriminate]. inversion X; subst.
    split; [auto|]. split; [apply propsb_dict; auto|]. apply fontb_is. auto.
Qed.

Fixpoint nodupb (l : list Z) : bool := match l with [] => true | x :: l' => negb (existsb (Z.eqb x) l') && nodupb l' end.
Lemma inb_in : forall x l, existsb (Z.eqb x) l = true <-> In x l.
Proof. intros x l. rewrite existsb_exists. split; [intros (y & H & E); apply Z.eqb_eq in E; subst; auto|]. intros H. exists x. split; [auto|apply Z.eqb_refl]. Qed.
Lemma nodupb_nodup : forall l, nodupb l = true -> NoDup l.
Proof.
  induction l as [|x l IH]; intros H; [constructor|]. cbn [nodupb] in H. apply andb_true_iff in H. destruct H as (H1 & H2). constructor; [|auto].
  intros X. apply inb_in in X. rewrite X in H1. discriminate.
Qed.

Definition quietb (ps : list prop) (n : bytes) : bool := negb (contains n (text_of ps)).
Lemma quietb_no : forall ps n, quietb ps n = true -> ~ mentions ps n.
Proof.
  intros ps n H. apply (proj2 (quiet_iff ps n)). apply contains_false. unfold quietb in H. now apply negb_true_iff in H.
Qed.
Lemma shown_yes : forall ps n, contains n (text_of ps) = true -> mentions ps n.
Proof. intros ps n H. apply mentions_occ. apply contains_true. auto. Qed.
Definition seenb (q : prop) : bool := match pval q with [] => true | v => match trim_space v with [] => false | _ => true end end.
Lemma seenb_seen : forall q, seenb q = true -> seen_value q.
Proof. intros q H. unfold seenb in H. unfold seen_value. destruct (pval q) as [|c v]; [left; auto|]. right. destruct (trim_space (c :: v)); [discriminate|congruence]. Qed.
Lemma seenb_all : forall ps, forallb seenb ps = true -> Forall seen_value ps.
Proof. intros ps H. rewrite forallb_forall in H. apply Forall_forall. intros q Hq. apply seenb_seen. auto. Qed.

Definition kidsb (os : list obj) (id : Z) (kids : list Z) : bool :=
  match propsb os id with
  | Some ps => onceb ps (B"Kids") && absentb ps K &&
      match getPropByKey (B"Kids") ps with
      | Some q => match propertyType (pval q), readObjIDs (pval q) with
                  | PArray, Ok l => if list_eq_dec Z.eq_dec l kids then true else false
                  | _, _ => false
                  end
      | None => false
      end
  | None => false
  end.
Lemma kidsb_is : forall os id kids, kidsb os id kids = true -> exists v, dict os id (props_of os id) /\ once (props_of os id) (B"Kids") v /\
  propertyType v = PArray /\ readObjIDs v = Ok kids /\ ~ has_key (props_of os id) K.
Proof.
  intros os id kids H. unfold kidsb in H. destruct (propsb os id) as [ps|] eqn:Pb; [|discriminate].
  assert (Eps : props_of os id = ps) by (unfold props_of; rewrite Pb; reflexivity). rewrite Eps.
  apply andb_true_iff in H. destruct H as (H & H3). apply andb_true_iff in H. destruct H as (H1 & H2).
  destruct (getPropByKey (B"Kids") ps) as [q|] eqn:G; [|discriminate]. exists (pval q). split; [apply propsb_dict; auto|]. split; [apply onceb_once; auto|].
  destruct (propertyType (pval q)); try discriminate. destruct (readObjIDs (pval q)) as [l| | |]; try discriminate.
  destruct (list_eq_dec Z.eq_dec l kids); [|discriminate]. subst. split; [auto|]. split; [auto|]. apply absent_key. auto.
Qed.

Definition levelb (t : tree) : bool :=
  match t with Leaf _ => true | Node _ ts => forallb (fun u => match u with Leaf _ => true | _ => false end) ts end.
Definition rootb (p : pdf) (rid : Z) : bool :=
  match propsb (objs p) (root p) with
  | Some ps => onceb ps (B"Pages") && absentb ps K && quietb ps (B"/Parent") &&
      match getPropByKey (B"Pages") ps with
      | Some q => match readObjID (pval q) with Ok n => n =? rid | _ => false end
      | None => false
      end
  | None => false
  end.
Definition innerb (os : list obj) (t : tree) : bool :=
  match t with
  | Leaf _ => true
  | Node id kids => let ps := props_of os id in
      kidsb os id (map tid kids) && contains (B"/Pages") (text_of ps) && contains (B"/Parent") (text_of ps) && forallb seenb ps && absentb ps (B"Resources")
  end.
Definition leafb (os : list obj) (id : Z) : bool :=
  let ps := props_of os id in
  pageb os id && absentb ps K && quietb ps (B"/Pages") &&
  match place_of os id with ResIn rps _ | ResAt _ rps _ => quietb rps (B"/Pages") | NoRes => true end.
Definition tidyb (p : pdf) (rid : Z) (ts : list tree) : bool :=
  let os := objs p in
  let nodes := root p :: rid :: flat_map tree_ids ts in
  let ids := flat_map leaves ts in
  let rr := flat_map (fun i => res_objects (place_of os i)) ids in
  let ff := flat_map (fun i => font_objects (place_of os i)) ids in
  nodupb (map oid os) && nodupb nodes && rootb p rid && kidsb os rid (map tid ts) && quietb (props_of os rid) (B"/Parent") &&
  forallb levelb ts && forallb (innerb os) ts && forallb (leafb os) ids &&
  forallb (fun r => negb (existsb (Z.eqb r) nodes)) rr && forallb (fun f => negb (existsb (Z.eqb f) (nodes ++ rr))) ff.

Lemma tidyb_tidy : forall p rid ts, tidyb p rid ts = true -> tidy K p rid ts (place_of (objs p)).
Proof.
  intros p rid ts H. unfold tidyb in H. repeat (apply andb_true_iff in H; let X := fresh "C" in destruct H as (H & X)).
  set (os := objs p) in *. constructor; fold os.
  - apply nodupb_nodup; auto.
  - apply nodupb_nodup; auto.
  - unfold rootb in C6. fold os in C6. destruct (propsb os (root p)) as [ps|] eqn:Pb; [|discriminate].
    repeat (apply andb_true_iff in C6; let X := fresh "D" in destruct C6 as (C6 & X)).
    destruct (getPropByKey (B"Pages") ps) as [q|] eqn:G; [|discriminate]. exists ps, (pval q). split; [apply propsb_dict; auto|]. split; [apply onceb_once; auto|].
    destruct (readObjID (pval q)) as [n| | |]; try discriminate. apply Z.eqb_eq in D. subst n. split; [auto|]. split; [apply quietb_no; auto|apply absent_key; auto].
  - destruct (kidsb_is _ _ _ C5) as (v & D & O' & Ty & I' & NF). exists (props_of os rid), v. repeat (split; [solve [auto using quietb_no]|]). auto.
  - intros t Ht. rewrite forallb_forall in C3. specialize (C3 t Ht). destruct t as [id|id kids]; [left; eauto|right]. cbn [levelb] in C3. exists id, (map tid kids). f_equal.
    clear - C3. induction kids as [|u kids IH]; [reflexivity|]. cbn [forallb] in C3. apply andb_true_iff in C3. destruct C3 as (A & B0). destruct u; [|discriminate].
    cbn [map tid]. rewrite <- IH; auto.
  - intros id kids Hin. rewrite forallb_forall in C2. specialize (C2 _ Hin). cbn [innerb] in C2.
    repeat (apply andb_true_iff in C2; let X := fresh "D" in destruct C2 as (C2 & X)).
    destruct (kidsb_is _ _ _ C2) as (v & Dd & O' & Ty & I' & NF). exists (props_of os id), v.
    repeat (split; [solve [auto using shown_yes, seenb_all, absent_key]|]). auto.
  - intros id Hin. rewrite forallb_forall in C1. specialize (C1 _ Hin). unfold leafb in C1.
    repeat (apply andb_true_iff in C1; let X := fresh "D" in destruct C1 as (C1 & X)).
    exists (props_of os id). split; [apply pageb_is; auto|]. split; [apply absent_key; auto|]. split; [apply quietb_no; auto|].
    destruct (place_of os id); auto using quietb_no.
  - intros id r f id' Hin Hin'. rewrite forallb_forall in C0, C. split.
    + intros Hr X. assert (Y : In r (flat_map (fun i => res_objects (place_of os i)) (flat_map leaves ts))) by (apply in_flat_map; eauto).
      specialize (C0 r Y). apply inb_in in X. rewrite X in C0. discriminate.
    + intros Hf. assert (Y : In f (flat_map (fun i => font_objects (place_of os i)) (flat_map leaves ts))) by (apply in_flat_map; eauto).
      specialize (C f Y). apply negb_true_iff in C. rewrite existsb_app in C. apply orb_false_iff in C. destruct C as (Ca & Cb). split.
      * intros X. apply inb_in in X. congruence.
      * intros X. assert (Z0 : In f (flat_map (fun i => res_objects (place_of os i)) (flat_map leaves ts))) by (apply in_flat_map; eauto).
        apply inb_in in Z0. congruence.
Qed.

(** ** Pages that are written anew *)
Definition regb (k : bytes) : bool :=
  forallb (fun c => (33 <=? c) && (c <? 127) && negb (existsb (Z.eqb c) [47; 60; 62; 91; 93])) k && negb (contains (B"stream") k).
Lemma regb_reg : forall k, regb k = true -> regular_name k.
Proof.
  intros k H. unfold regb in H. apply andb_true_iff in H. destruct H as (H1 & H2). split.
  - rewrite forallb_forall in H1. apply Forall_forall. intros c Hc. specialize (H1 c Hc). cbn [existsb] in H1. lia.
  - intros a b E. apply negb_true_iff in H2. apply (proj1 (contains_false _ _) H2 (List.length a)). exists a, b. auto.
Qed.
Lemma regb_all : forall ps, forallb (fun q => regb (pkey q)) ps = true -> Forall (fun q => regular_name (pkey q)) ps.
Proof. intros ps H. rewrite forallb_forall in H. apply Forall_forall. intros q Hq. apply regb_reg. auto. Qed.
Definition embb (q : prop) : bool := balanced 0 0 (pkey q) && balanced 0 0 (pval q) && lone_free ([32] ++ pval q ++ [32]).
Lemma embb_all : forall ps, forallb embb ps = true -> Forall embeddable ps.
Proof.
  intros ps H. rewrite forallb_forall in H. apply Forall_forall. intros q Hq. specialize (H q Hq). unfold embb in H.
  apply andb_true_iff in H. destruct H as (H & H3). apply andb_true_iff in H. destruct H as (H1 & H2). split; [auto|]. split; [auto|]. apply lone_free_elim. auto.
Qed.
Definition rewb (s : bytes) : bool := negb (contains (B"stream") s) && forallb (fun c => (0 <=? c) && (c <? 128)) s && lone_free s.
Lemma rewb_rew : forall s, rewb s = true -> rewritable s.
Proof.
  intros s H. unfold rewb in H. apply andb_true_iff in H. destruct H as (H & H3). apply andb_true_iff in H. destruct H as (H1 & H2).
  apply rewritable_check; auto. now apply negb_true_iff.
Qed.

Definition writableb (os : list obj) (ids : list Z) (id : Z) : bool :=
  match place_of os id with
  | ResIn rps (FontIn fps) => rewb (data_of os id) && forallb seenb (props_of os id) && forallb seenb rps && forallb embb rps &&
      forallb (fun q => regb (pkey q)) fps && match getPropByKey (B"Resources") (props_of os id) with Some q => rewb (pval q) | None => false end
  | ResAt r rps (FontIn fps) => rewb (data_of os r) && forallb seenb rps && forallb (fun q => regb (pkey q)) fps &&
      (forallb (fun i => implb (existsb (Z.eqb r) (res_objects (place_of os i))) (i =? id)) ids || forallb (fun q => balanced 0 0 (pval q)) rps)
  | ResIn _ (FontAt _ fps) | ResAt _ _ (FontAt _ fps) => forallb (fun q => regb (pkey q)) fps
  | _ => false
  end.
Lemma writableb_is : forall os ids id, pageb os id = true -> writableb os ids id = true -> writable_page os ids (place_of os) id.
Proof.
  intros os ids id P H. unfold writableb in H. unfold writable_page. pose proof (pageb_is os id P) as (D & Q).
  destruct (place_of os id) as [|rps fp|r rps fp] eqn:E; [discriminate| |]; destruct fp as [|fps|f fps]; try discriminate; auto using regb_all.
  - rewrite !andb_true_iff in H. destruct H as (((((H & C3) & C2) & C1) & C0) & C).
    split; [|split; [apply seenb_all; auto|split; [apply embb_all; auto|apply regb_all; auto]]].
    destruct D as (o & V & En). destruct Q as (v & O' & _). exists o, (props_of os id), v. split; [auto|]. split; [auto|].
    assert (Eo : data_of os id = odata o) by (unfold data_of; rewrite (version_get _ _ _ V); reflexivity). rewrite Eo in H.
    split; [apply rewb_rew; auto|]. split; [apply seenb_all; auto|]. split; [auto|].
    pose proof (value_get _ _ _ (once_value _ _ _ O')) as G. rewrite G in C. apply rewb_rew. auto.
  - rewrite !andb_true_iff in H. destruct H as (((H & C1) & C0) & C).
    split; [|split; [apply seenb_all; auto|split; [apply regb_all; auto|]]].
    + destruct Q as (v & O' & I' & (o & V & En) & _). exists o. split; [auto|].
      assert (Eo : data_of os r = odata o) by (unfold data_of; rewrite (version_get _ _ _ V); reflexivity). rewrite Eo in H. apply rewb_rew. auto.
    + apply orb_true_iff in C. destruct C as [C|C]; [left|right; apply Forall_forall; apply (proj1 (forallb_forall _ _) C)].
      intros r' id' Hr' Hin Hr. rewrite E in Hr'. destruct Hr' as [<-|[]]. rewrite forallb_forall in C. specialize (C id' Hin). apply inb_in in Hr. rewrite Hr in C. cbn [implb] in C. apply Z.eqb_eq. auto.
Qed.

(** ** Reading the fonts of a page *)
Definition pf_of (os : list obj) (id : Z) : option (list prop) := if pageb os id then place_fonts (place_of os id) else None.
Lemma pf_of_is : forall os id fps, pf_of os id = Some fps -> page_dict K os id fps.
Proof. intros os id fps H. unfold pf_of in H. destruct (pageb os id) eqn:P; [|discriminate]. apply (page_place _ _ _ _ _ _ (pageb_is _ _ P)). auto. Qed.
Lemma pf_of_only : forall os id fps qs, pf_of os id = Some fps -> page_dict K os id qs -> qs = fps.
Proof.
  intros os id fps qs H Q. unfold pf_of in H. destruct (pageb os id) eqn:P; [|discriminate]. apply (page_place _ _ _ _ _ _ (pageb_is _ _ P)) in Q. congruence.
Qed.

End Key.

(** ** Page trees *)
Definition kidsnumb (ps : list prop) (ids : list Z) : bool :=
  match getPropByKey (B"Kids") ps with
  | Some q => match readObjIDs (pval q) with Ok l => if list_eq_dec Z.eq_dec l ids then true else false | _ => false end
  | None => false
  end.
Fixpoint holdsb (f : nat) (os : list obj) (t : tree) : bool :=
  match f with
  | O => false
  | S f' =>
    match propsb os (tid t) with
    | None => false
    | Some ps =>
      match t with
      | Leaf _ => negb (absentb ps (B"Page")) && (absentb ps (B"Pages") || absentb ps (B"Kids"))
      | Node id ts => kidsnumb ps (map tid ts) && negb (absentb ps (B"Pages")) && absentb ps (B"Page") && forallb (holdsb f' os) ts
      end
    end
  end.
Lemma present_key : forall ps k, absentb ps k = false -> has_key ps k.
Proof.
  intros ps k H. unfold absentb in H. destruct (getPropByKey k ps) as [q|] eqn:G; [|discriminate]. apply get_value in G. destruct G as (_ & G).
  eapply value_has; eauto.
Qed.
Lemma holdsb_holds : forall f os t, holdsb f os t = true -> holds os t.
Proof.
  induction f as [|f IH]; intros os t H; [discriminate|]. cbn [holdsb] in H. destruct (propsb os (tid t)) as [ps|] eqn:Pb; [|discriminate].
  destruct (propsb_dict _ _ _ Pb) as (o & V & E). destruct t as [id|id ts]; cbn [tid] in V.
  - apply andb_true_iff in H. destruct H as (H1 & H2). eapply h_leaf; eauto. split; [apply present_key; now apply negb_true_iff|].
    intros (K1 & K2). apply orb_true_iff in H2. destruct H2 as [H2|H2]; apply absent_key in H2; auto.
  - rewrite !andb_true_iff in H. destruct H as (((H1 & H2) & H3) & H4). unfold kidsnumb in H1.
    destruct (getPropByKey (B"Kids") ps) as [q|] eqn:G; [|discriminate]. destruct (readObjIDs (pval q)) as [l| | |] eqn:R; try discriminate.
    destruct (list_eq_dec Z.eq_dec l (map tid ts)); [|discriminate]. subst l. apply (h_node os id o ps (pval q)); auto.
    + split; [apply present_key; now apply negb_true_iff|]. split; [apply absent_key; auto|]. apply get_value in G. apply G.
    + left. auto.
    + rewrite forallb_forall in H4. apply Forall_forall. intros t Ht. apply IH. auto.
Qed.
Definition treeb (f : nat) (p : pdf) (t : tree) : bool :=
  holdsb f (objs p) t &&
  match propsb (objs p) (root p) with
  | Some ps => match getPropByKey (B"Pages") ps with Some q => match readObjID (pval q) with Ok n => n =? tid t | _ => false end | None => false end
  | None => false
  end.
Lemma treeb_tree : forall f p t, treeb f p t = true -> page_tree p t.
Proof.
  intros f p t H. unfold treeb in H. apply andb_true_iff in H. destruct H as (H1 & H2). split; [|eapply holdsb_holds; eauto].
  destruct (propsb (objs p) (root p)) as [ps|] eqn:Pb; [|discriminate]. destruct (getPropByKey (B"Pages") ps) as [q|] eqn:G; [|discriminate].
  destruct (readObjID (pval q)) as [n| | |] eqn:R; try discriminate. apply Z.eqb_eq in H2. subst n.
  destruct (propsb_dict _ _ _ Pb) as (o & V & E). apply get_value in G. destruct G as (_ & G). exists o, ps, (pval q). auto.
Qed.
