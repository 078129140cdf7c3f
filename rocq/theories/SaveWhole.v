(** Saving a document, from the calls to the file. *)
From Coq Require Import String List ZArith Lia Bool Permutation.
From Coq.Floats Require Import SpecFloat.
From Verif Require Import Base BaseProofs Output OutputSpec OutputProofs Props PropsSpec PdfData PagesSpec PagesProofs
  Crawl Inject InjectSpec InjectMaps InjectVisits CrawlProofs InjectPages InjectFonts InjectFinal ContentSpec ContentProofs ContentFinal ImgSpec FontChainSpec FontChain Parse Crypto Api ApiIds ImgPages SaveSpec SaveFrame SaveKeeps SaveFonts SaveImages SaveDoc.
Open Scope Z_scope.
Open Scope list_scope.

(** ** The steps of a save *)
(** The objects [os] as they are in the file, and the encryption dictionary. *)
Definition locks (pr : option protection) (os os' : list obj) (enc : option bytes) : Prop :=
  match pr with
  | None => os' = os /\ enc = None
  | Some p => encrypt_all p os = Ok os' /\ enc = Some (enc_dict p)
  end.
Lemma save_steps : forall w fuel ch s s' F, saveTo w fuel ch s = Ok (s', Ok F) -> fair (ch_ord ch) ->
  exists order order2 fs1 next p1 idx p4 names p5 os enc,
    let p0 := d_pdf (s_doc s) in
    let fs2 := fold_left set_index idx fs1 in
    let imgs := img_objs (s_imgs s) next in
    let is := map (fun x => mkImage (im_data (fst x)) (fst (snd x)) (snd (snd x))) (combine (s_imgs s) names) in
    Permutation order (map snd (names_of s)) /\ Permutation order2 (map snd (names_of s)) /\
    build_fonts w order (s_fonts s) (maxID (objs p0)) = (fs1, Ok next) /\
    injectFonts (ch_ord ch) p0 (map (fun h => (Z.of_nat h, match nth_error fs1 h with Some f => fd_id f | None => 0 end)) order) = Ok (p1, idx) /\
    injectImgs (ch_ord ch) (mkPdf (root p1) (objs p1 ++ flat_map (objs_at fs2) order2 ++ imgs)) (map oid imgs) = Ok (p4, names) /\
    injectContent (ch_ord ch) (w_inflate w) (ch_beyond ch) fuel p4 (map (content_of fs2 is) (s_cont s)) = Ok p5 /\
    locks (s_prot s) (objs p5) os enc /\ F = toStream os (next + Z.of_nat (List.length imgs)) (root p5) enc /\ s_fonts s' = fs2 /\ s_imgs s' = is.
Proof.
  intros w fuel ch s s' F H Fair. cbv zeta. unfold saveTo in H. cbv zeta in H. set (p0 := d_pdf (s_doc s)) in *.
  set (handles := match s_names s with Some n => _ | None => _ end) in H.
  assert (Hh : handles = map (fun x => (Z.of_nat (snd x), tt)) (names_of s)) by (unfold handles, names_of; destruct (s_names s); reflexivity).
  clearbody handles. subst handles. set (handles := map (fun x => (Z.of_nat (snd x), tt)) (names_of s)) in H.
  assert (Hm : map (fun x => Z.to_nat (fst x)) handles = map snd (names_of s)).
  { unfold handles. rewrite map_map. apply map_ext. intros x. cbn. lia. }
  pose proof (Fair [31] _ handles) as P31. pose proof (Fair [32] _ handles) as P32.
  set (h31 := ch_ord ch [31] unit handles) in *. set (h32 := ch_ord ch [32] unit handles) in *.
  apply (Permutation_map (fun x => Z.to_nat (fst x))) in P31. apply (Permutation_map (fun x => Z.to_nat (fst x))) in P32.
  rewrite Hm in P31, P32. clearbody h31 h32.
  set (order := map (fun x => Z.to_nat (fst x)) h31) in *. set (order2 := map (fun x => Z.to_nat (fst x)) h32) in *.
  destruct (build_fonts w order (s_fonts s) (maxID (objs p0))) as [fs1 r1] eqn:Eb.
  destruct r1 as [next|e| |]; try discriminate.
  destruct (injectFonts _ _ _) as [[p1 idx]|e| |] eqn:Ef; try discriminate.
  set (new := flat_map _ h32) in H.
  assert (En : new = flat_map (objs_at (fold_left set_index idx fs1)) order2).
  { unfold new, order2. clear. induction h32 as [|x l IH]; cbn [flat_map map]; [reflexivity|]. rewrite IH. reflexivity. }
  clearbody new. subst new.
  destruct (injectImgs _ _ _) as [[p4 names]|e| |] eqn:Ei; try discriminate.
  destruct (injectContent _ _ _ _ _ _) as [p5|e| |] eqn:Ec; try discriminate.
  assert (D : exists os enc s5, locks (s_prot s) (objs p5) os enc /\ Ok (s5, Ok (toStream os (next + Z.of_nat (List.length (img_objs (s_imgs s) next))) (root p5) enc)) = Ok (s', Ok F)
    /\ s_fonts s5 = fold_left set_index idx fs1 /\ s_imgs s5 = map (fun x => mkImage (im_data (fst x)) (fst (snd x)) (snd (snd x))) (combine (s_imgs s) names)).
  { unfold locks. destruct (s_prot s) as [pr|].
    - destruct (encrypt_all pr (objs p5)) as [os| | |] eqn:Ee; cbn [bind] in H; try discriminate. eexists os, _, _. split; [split; reflexivity|]. split; [exact H|].
      split; (destruct (match _ with [] => true | _ :: _ => ch_room ch end); reflexivity).
    - eexists _, _, _. split; [split; reflexivity|]. split; [exact H|]. split; (destruct (match _ with [] => true | _ :: _ => ch_room ch end); reflexivity). }
  destruct D as (os & enc & s5 & HL & HE & Hf & Hi).
  assert (s5 = s') by (exact (f_equal (fun r => match r with Ok (a, _) => a | _ => s' end) HE)).
  assert (toStream os (next + Z.of_nat (List.length (img_objs (s_imgs s) next))) (root p5) enc = F) by (exact (f_equal (fun r => match r with Ok (_, Ok a) => a | _ => F end) HE)).
  subst s5 F. exists order, order2, fs1, next, p1, idx, p4, names, p5, os, enc.
  repeat (split; [first [assumption|reflexivity]|]). exact Hi.
Qed.

(** ** Indexes *)
Lemma set_index_objs : forall idx fs k, objs_at (fold_left set_index idx fs) k = objs_at fs k.
Proof.
  induction idx as [|x idx IH]; intros fs k; cbn [fold_left]; [reflexivity|]. rewrite IH. unfold objs_at, set_index.
  destruct (Nat.eq_dec k (Z.to_nat (fst x))) as [->|Ne]; [rewrite nth_set; destruct (nth_error fs _); reflexivity|rewrite nth_set_other by exact Ne; reflexivity].
Qed.
Lemma set_index_other : forall idx fs h, ~ In h (map (fun x => Z.to_nat (fst x)) idx) -> nth_error (fold_left set_index idx fs) h = nth_error fs h.
Proof.
  induction idx as [|x idx IH]; intros fs h N; cbn [fold_left]; [reflexivity|]. cbn [map] in N. rewrite IH by (intros H; apply N; right; exact H).
  apply nth_set_other. intros ->. apply N. left. reflexivity.
Qed.
Lemma set_index_at : forall idx fs h i f, NoDup (map (fun x => Z.to_nat (fst x)) idx) -> In (Z.of_nat h, i) idx -> nth_error fs h = Some f ->
  exists f', nth_error (fold_left set_index idx fs) h = Some f' /\ fd_index f' = i /\ fd_id f' = fd_id f.
Proof.
  induction idx as [|x idx IH]; intros fs h i f N H E; [destruct H|]. cbn [fold_left map] in *. apply NoDup_cons_iff in N as (N1 & N2).
  destruct H as [->|H].
  - cbn [fst] in N1. rewrite Nat2Z.id in N1. rewrite set_index_other by exact N1. unfold set_index. cbn [fst snd]. rewrite Nat2Z.id, nth_set, E. cbn.
    eexists. split; [reflexivity|]. split; reflexivity.
  - apply (IH _ h i f N2 H). unfold set_index. rewrite nth_set_other; [exact E|]. intros ->. apply N1.
    apply in_map_iff. exists (Z.of_nat (Z.to_nat (fst x)), i). split; [cbn; apply Nat2Z.id|exact H].
Qed.

(** ** Contents *)
Lemma all_drawn : forall cs m m', pageBuffs cs m = Ok m' -> exists ins, cs = calls ins.
Proof.
  induction cs as [|[k r] cs IH]; intros m m' H; [exists []; reflexivity|]. cbn [pageBuffs] in H. apply bind_ok in H as (t & E & H).
  destruct (IH _ _ H) as (ins & ->). exists ((k, t) :: ins). rewrite E. reflexivity.
Qed.
Lemma drawn_calls : forall (f : contenter -> Z * res bytes) cs ins, map f cs = calls ins -> Forall2 (fun c i => f c = (fst i, Ok (snd i))) cs ins.
Proof.
  induction cs as [|c cs IH]; intros [|i ins] H; try discriminate; constructor; cbn [map calls] in H; injection H as H1 H2; [|apply IH; exact H2]. exact H1.
Qed.
Lemma unique_written : forall p p' srcs ins k cid t co, content_effect p p' srcs ins -> NoDup (map oid (objs p')) -> writes srcs ins k cid t ->
  (forall k' t', k < k' -> ~ writes srcs ins k' cid t') -> version (objs p) cid co ->
  exists co', version (objs p') cid co' /\ plain_stream (odata co') (t ++ [10] ++ drawn ins k).
Proof.
  intros p p' srcs ins k cid t co (_ & L & H) N W Last (a & b & E & Ho & V).
  assert (St : stands a co b).
  { destruct V as [(A & A')|(A & A')]; [left; split; [exact A|rewrite Ho; exact A']|right; rewrite <- E, Ho; auto]. }
  destruct (H a co b E) as (co' & Hn' & Ho' & H1 & _). rewrite Ho in *. exists co'. split; [|apply (H1 k t St W Last)].
  apply version_unique; [exact N|eapply nth_error_In; exact Hn'|exact Ho'].
Qed.
Lemma writes_id : forall srcs ins k cid t, writes srcs ins k cid t -> In cid (content_ids srcs).
Proof.
  intros srcs ins k cid t (_ & H & _). apply nth_error_In in H. unfold content_ids. apply in_flat_map. exists (Some (cid, t)). split; [exact H|left; reflexivity].
Qed.
Lemma forall2_in : forall (A C : Type) (P Q : A -> C -> Prop) l m, Forall2 P l m -> (forall a c, In a l -> In c m -> P a c -> Q a c) -> Forall2 Q l m.
Proof.
  intros A C P Q l m F H. induction F as [|x y l m Hx F IH]; constructor; [apply H; [left|left|exact Hx]; reflexivity|].
  apply IH. intros a c Ha Hc. apply H; right; assumption.
Qed.
Lemma combine_at : forall (A C : Type) (l : list A) (m : list C) n a c, nth_error l n = Some a -> nth_error m n = Some c -> nth_error (combine l m) n = Some (a, c).
Proof. intros A C. induction l as [|x l IH]; intros [|y m] [|n] a c H1 H2; try discriminate; cbn in *; [congruence|auto]. Qed.
Lemma img_objs_nth : forall is n h i, nth_error is h = Some i -> nth_error (img_objs is n) h = Some (mkObj (n + 1 + Z.of_nat h) (im_data i)).
Proof.
  induction is as [|x is IH]; intros n [|h] i H; try discriminate; cbn [img_objs nth_error] in *; [injection H as ->; rewrite Z.add_0_r; reflexivity|].
  rewrite (IH _ _ _ H). do 2 f_equal. lia.
Qed.
Lemma the_object_in : forall os o, In o os -> NoDup (map oid os) -> the_object os (oid o) o.
Proof. intros os o H N. apply In_nth_error in H. destruct H as (n & H). eapply the_object_nth; eassumption. Qed.
Lemma forall2_nth : forall (A C : Type) (P : A -> C -> Prop) l m n a, Forall2 P l m -> nth_error l n = Some a -> exists c, nth_error m n = Some c /\ P a c.
Proof.
  intros A C P l m n a F. revert n. induction F as [|x y l m H F IH]; intros [|n] E; try discriminate; [injection E as <-; exists y; auto|]. apply (IH n E).
Qed.

(** ** The number of objects of a file *)
Lemma size_bound : forall os last r enc, 0 <= last -> blen (toStream os last r enc) < 10 ^ 10 -> last < 10 ^ 10.
Proof.
  intros os last r enc Hl HF. rewrite toStream_write in HF. pose proof (saved_last_nonneg last enc Hl) as Hs.
  assert (last <= saved_last last enc) by (destruct enc; cbn [saved_last]; lia).
  pose proof (rows_len _ _ r (saved_enc last enc) Hs HF) as RL. rewrite F_eq in HF. rewrite !blen_app, RL in HF.
  assert (P : forall x : bytes, 0 <= blen x) by (intros x; unfold blen; lia).
  match type of HF with blen ?a + blen ?c + (blen ?d + (_ + blen ?e)) < _ => pose proof (P a); pose proof (P c); pose proof (P d); pose proof (P e) end. lia.
Qed.

(** ** The objects of a page tree *)
Lemma tree_objects : forall p rid ts, page_tree p (Node rid ts) -> forall j, In j (root p :: rid :: flat_map tree_ids ts) -> exists o, version (objs p) j o.
Proof.
  intros p rid ts ((c & ps & v & V & _) & H) j [<-|Hj]; [eauto|].
  change (rid :: flat_map tree_ids ts) with (tree_ids (Node rid ts)) in Hj. revert H Hj. generalize (Node rid ts) as t. clear. revert j.
  fix IH 3. intros j t H Hj. destruct H as [id o ps V E P|id o ps v ts V E P K F].
  - destruct Hj as [<-|[]]. eauto.
  - destruct Hj as [<-|Hj]; [eauto|]. clear P K. induction F as [|t ts H F IHF]; [destruct Hj|]. cbn [flat_map] in Hj. apply in_app_or in Hj. destruct Hj as [Hj|Hj]; [apply (IH j t H Hj)|apply IHF; exact Hj].
Qed.

Lemma tree_dicts : forall p rid ts, page_tree p (Node rid ts) -> forall j, In j (root p :: rid :: flat_map tree_ids ts) -> exists ps, dict (objs p) j ps.
Proof.
  intros p rid ts ((c & ps & v & V & Ec & _) & H) j [<-|Hj]; [exists ps, c; auto|].
  change (rid :: flat_map tree_ids ts) with (tree_ids (Node rid ts)) in Hj. revert H Hj. generalize (Node rid ts) as t. clear. revert j.
  fix IH 3. intros j t H Hj. destruct H as [id o ps V E P|id o ps v ts V E P K F].
  - destruct Hj as [<-|[]]. exists ps, o. auto.
  - destruct Hj as [<-|Hj]; [exists ps, o; auto|]. clear P K E. induction F as [|t ts H F IHF]; [destruct Hj|]. cbn [flat_map] in Hj. apply in_app_or in Hj. destruct Hj as [Hj|Hj]; [apply (IH j t H Hj)|apply IHF; exact Hj].
Qed.

(** ** The pages after fonts and images *)
Lemma chain_off : forall X os L rs ps v rps, ~ X L -> (forall r, In r rs -> ~ X r) -> chain os L rs ps v rps -> dict_off X os L ps /\ value ps (B"Resources") v /\ points_off X os v rps.
Proof.
  intros X os L rs ps v rps N1 N2 (D & Ov & H). split; [split; assumption|]. split; [apply once_value; exact Ov|]. destruct rs as [|r rs]; [left; exact H|]. destruct H as (I' & Dr). right. exists r.
  split; [exact I'|]. split; [apply N2; left; reflexivity|exact Dr].
Qed.
Lemma off_same : forall X os os' v ps, (forall j, ~ X j -> same_at os os' j) -> points_off X os v ps -> points os' v ps.
Proof. intros X os os' v ps S [H|(n & R & N & Dn)]; [left; exact H|]. right. exists n. split; [exact R|]. apply (same_entries os); auto. Qed.
Lemma chain_points : forall os L rs ps v rps ps' v' rps', chain os L rs ps v rps -> dict os L ps' -> value ps' (B"Resources") v' -> points os v' rps' -> rps' = rps.
Proof.
  intros os L rs ps v rps ps' v' rps' (D & Ov & H) D' V' P. assert (ps' = ps) by (eapply dict_fun; eauto). subst. assert (v' = v) by (eapply value_fun; [exact V'|apply once_value; exact Ov]). subst.
  destruct rs as [|r rs]; destruct H as (H1 & H2); destruct P as [(P1 & P2)|(n & P1 & P2)].
  - congruence.
  - apply type_ref in P1. congruence.
  - apply type_ref in H1. congruence.
  - assert (n = r) by congruence. subst. eapply dict_fun; eauto.
Qed.

Section Pages.
  Variables (p0 : pdf) (rid : Z) (ts : list tree) (fi xi : Z -> res_place).
  Hypothesis RD : ready_document p0 rid ts fi xi.
  Notation ids := (flat_map leaves ts).
  Notation top := (root p0 :: rid :: flat_map tree_ids ts).
  Variables (ord : morder) (fonts idx : list (Z * Z)) (p1 : pdf).
  Hypothesis Fr : fair ord.
  Hypothesis Run : injectFonts ord p0 fonts = Ok (p1, idx).
  Variables (more : list obj) (imgs : list Z) (p4 : pdf) (names : list (bytes * Z)).
  Notation p3 := (mkPdf (root p1) (objs p1 ++ more)).
  Hypothesis N3 : NoDup (map oid (objs p1 ++ more)).
  Hypothesis IA : images_added p0 rid ts fi xi fonts idx p1 more imgs p4 names.
  Let TF := rd_fonts _ _ _ _ _ RD.
  Let TX := rd_images _ _ _ _ _ RD.

  Lemma touched_page : forall j, touched ts fi j -> page_object ids fi j.
  Proof.
    intros j (L & HL & H). exists L. split; [exact HL|]. destruct (target_cases _ _ _ H) as [(-> & rps & fps & E)|[(rps & fps & E)|H']].
    - rewrite E. left. reflexivity.
    - rewrite E. left. reflexivity.
    - unfold page_objects. apply in_or_app. right. exact H'.
  Qed.
  Lemma holder_page : forall L j, In L ids -> In j (holder L (xi L)) -> page_object ids fi j.
  Proof.
    intros L j HL H. exists L. split; [exact HL|]. destruct (same_place _ _ _ _ _ RD L HL) as (_ & E & _). rewrite E in H. unfold page_objects. apply in_or_app. left. exact H.
  Qed.
  Lemma res_page : forall L r, In L ids -> In r (res_objects (xi L)) -> page_object ids fi r.
  Proof. intros L r HL H. apply (holder_page L r HL). destruct (xi L); try contradiction. exact H. Qed.
  Lemma page_object_dict : forall j, page_object ids fi j -> exists ps, dict (objs p0) j ps.
  Proof.
    intros j (L & HL & H). destruct (page_of _ _ _ _ TF L HL) as (ps & (D & P) & _). unfold page_objects in H. apply in_app_or in H. destruct (fi L) as [|rps fp|r rps fp]; [destruct H as [[]|[]]| |].
    - destruct H as [[<-|[]]|H]; [eauto|]. destruct fp as [|fps|f fps]; try destruct H; [subst j|contradiction]. destruct P as (v & _ & _ & _ & (u & _ & _ & D')). eauto.
    - destruct H as [[<-|[]]|H]; [destruct P as (v & _ & _ & D' & _); eauto|]. destruct fp as [|fps|f fps]; try destruct H; [subst j|contradiction]. destruct P as (v & _ & _ & _ & (u & _ & _ & D')). eauto.
  Qed.
  Lemma page_object_dec : forall j, page_object ids fi j \/ ~ page_object ids fi j.
  Proof.
    intros j. destruct (in_dec Z.eq_dec j (flat_map (fun L => page_objects L (fi L)) ids)) as [H|H]; [left|right; intros (L & HL & H'); apply H]; [|apply in_flat_map; eauto].
    apply in_flat_map in H. destruct H as (L & HL & H). exists L. auto.
  Qed.

  Lemma frame04 : forall j, ~ page_object ids fi j -> (images_none ids xi -> ~ In j top) -> same_at (objs p0) (objs p4) j.
  Proof.
    intros j N Nt. destruct (same03 p0 rid ts fi xi RD ord fonts idx p1 Fr Run more N3 j) as [H|H]; [exfalso; apply N, touched_page, H|]. eapply same_trans; [exact H|].
    apply alike_same, (ia_same _ _ _ _ _ _ _ _ _ _ _ _ IA); [|exact Nt]. intros L HL Hj. apply N, (holder_page L j HL Hj).
  Qed.
  Lemma top04 : forall j ps, In j top -> dict (objs p0) j ps -> exists ps', dict (objs p4) j ps' /\ with_resources ps ps' /\ (In j ids -> contents_kept ps ps').
  Proof.
    intros j ps Hj D.
    assert (X : exists ps1, dict (objs p3) j ps1 /\ with_resources ps ps1 /\ (In j ids -> contents_kept ps ps1)).
    { assert (Y : same_at (objs p0) (objs p3) j -> exists ps1, dict (objs p3) j ps1 /\ with_resources ps ps1 /\ (In j ids -> contents_kept ps ps1)).
      { intros S. exists ps. split; [apply (same_entries (objs p0)); auto|]. split; [apply with_refl|]. intros _. apply contents_refl. }
      destruct (in_dec Z.eq_dec j ids) as [HL|NL]; [|apply Y, (top_kept p0 rid ts fi xi RD ord fonts idx p1 Fr Run more N3 j Hj); contradiction].
      destruct (xi j) as [|e1 e2|e1 e2 e3] eqn:E; [apply Y, (top_kept p0 rid ts fi xi RD ord fonts idx p1 Fr Run more N3 j Hj); congruence| |];
        (assert (Nr : xi j <> NoRes) by congruence; destruct (page_three p0 rid ts fi xi RD ord fonts idx p1 Fr Run more N3 j HL Nr) as (ps0 & v0 & rps0 & ps1 & v & rps & P);
         pose proof (p3_before _ _ _ _ _ _ _ _ _ _ _ _ _ _ P) as (D0 & _); assert (ps0 = ps) by (eapply dict_fun; eauto); subst ps0; exists ps1;
         split; [apply (p3_after _ _ _ _ _ _ _ _ _ _ _ _ _ _ P)|]; split; [apply (p3_with _ _ _ _ _ _ _ _ _ _ _ _ _ _ P)|]; intros _; apply (p3_contents _ _ _ _ _ _ _ _ _ _ _ _ _ _ P)). }
    destruct X as (ps1 & D1 & W1 & C1). destruct (ia_top _ _ _ _ _ _ _ _ _ _ _ _ IA j ps1 Hj D1) as (ps' & D' & W' & C').
    exists ps'. split; [exact D'|]. split; [eapply with_trans; eauto|]. intros HL. eapply contents_trans; eauto.
  Qed.

  Variable X : Z -> Prop.
  Hypothesis Apart : forall c, X c -> ~ In c top /\ ~ page_object ids fi c.

  (** A page with resources, in the end. *)
  Lemma page04 : forall L, In L ids -> xi L <> NoRes -> exists ps0 v0 rps0 ps' v' rps', chain (objs p0) L (res_objects (xi L)) ps0 v0 rps0 /\
    dict_off X (objs p4) L ps' /\ value ps' (B"Resources") v' /\ points_off X (objs p4) v' rps' /\
    (forall k u, k <> B"Font" -> k <> B"XObject" -> value rps0 k u -> value rps' k u) /\
    (forall fps, offered (fi L) = Some fps -> exists w fps', value rps' (B"Font") w /\ points_off X (objs p4) w fps' /\ fonts_added fonts idx fps fps') /\
    (pictured ids xi L -> exists x xps', value rps' (B"XObject") x /\ points_off X (objs p4) x xps' /\ images_named imgs names xps' /\
       forall xps k n, offered (xi L) = Some xps -> font_named xps k n -> font_named xps' k n).
  Proof.
    intros L HL Nr. destruct (page_three p0 rid ts fi xi RD ord fonts idx p1 Fr Run more N3 L HL Nr) as (ps0 & v0 & rps0 & ps & v & rps & P).
    destruct (ia_page _ _ _ _ _ _ _ _ _ _ _ _ IA L _ _ _ _ _ _ HL Nr P) as (ps' & v' & rps' & Ch & Kv & Pi).
    assert (NL : ~ X L) by (intros H; apply Apart in H; destruct H as (H & _); apply H, (leaf_in' _ _ _ _ TF), HL).
    assert (Nres : forall r, In r (res_objects (xi L)) -> ~ X r) by (intros r Hr H; apply Apart in H; destruct H as (_ & H); apply H; eapply res_page; eauto).
    destruct (chain_off X _ _ _ _ _ _ NL Nres Ch) as (Do & Vo & Po). exists ps0, v0, rps0, ps', v', rps'. split; [apply (p3_before _ _ _ _ _ _ _ _ _ _ _ _ _ _ P)|]. split; [exact Do|]. split; [exact Vo|]. split; [exact Po|]. split; [|split].
    - intros k u N1 N2 U. apply Kv; [exact N2|]. apply (kp_value _ _ _ (p3_res _ _ _ _ _ _ _ _ _ _ _ _ _ _ P)); auto.
    - intros fps Of. destruct (p3_fonts _ _ _ _ _ _ _ _ _ _ _ _ _ _ P fps Of) as (fps' & w & Vw & Pw & Fa). exists w, fps'. split; [apply Kv; [discriminate|exact Vw]|]. split; [|exact Fa].
      destruct Pw as [Pw|(f & Hf & Iw & Df)]; [left; exact Pw|]. right. exists f. split; [exact Iw|].
      assert (Fp : page_object ids fi f) by (exists L; split; [exact HL|]; unfold page_objects; apply in_or_app; auto).
      split; [intros H; apply Apart in H; tauto|]. apply (same_entries (objs p3)); [|apply (same_entries (objs p1)); [apply same_added; exact N3|exact Df]].
      apply alike_same, (ia_same _ _ _ _ _ _ _ _ _ _ _ _ IA).
      + intros L' HL' Hh. assert (Ft : ~ In f top) by (apply (f_off _ _ _ _ _ RD L f HL Hf)). destruct (same_place _ _ _ _ _ RD L' HL') as (_ & E & _). rewrite E in Hh.
        destruct (fi L') as [|q fp|r q fp] eqn:EL; [destruct Hh| |]; destruct Hh as [Hh|[]]; subst f; [apply Ft, (leaf_in' _ _ _ _ TF), HL'|].
        apply (R_F _ _ _ _ TF r); [exists L'; split; [exact HL'|rewrite EL; left; reflexivity]|exists L; auto].
      + intros _. apply (f_off _ _ _ _ _ RD L f HL Hf).
    - intros Pc. destruct (Pi Pc) as (x & xps' & Vx & Tx & Rx & Nm & Ko). exists x, xps'. split; [exact Vx|]. split; [left; auto|]. auto.
  Qed.
End Pages.

(** ** The whole save *)
Section Whole.
  Variables (w : world) (fuel : nat) (ch : choices) (s s' : state) (F : bytes).
  Notation p0 := (d_pdf (s_doc s)).
  Variables (rid : Z) (ts : list tree) (fi xi : Z -> res_place).
  Variable srcs : list (option (Z * bytes)).
  Notation ids := (flat_map leaves ts).
  Notation top := (root p0 :: rid :: flat_map tree_ids ts).
  Hypothesis Save : saveTo w fuel ch s = Ok (s', Ok F).
  Hypothesis Fr : fair (ch_ord ch).
  Hypothesis Names : NoDup (map snd (names_of s)).
  Hypothesis RD : ready_document p0 rid ts fi xi.
  Hypothesis Src : Forall2 (source (w_inflate w) (objs p0)) ids srcs.
  Hypothesis Apart : forall c, In c (content_ids srcs) -> ~ In c top /\ ~ page_object ids fi c.
  Hypothesis Deep : (depth (Node rid ts) <= fuel)%nat.
  Hypothesis Root : 0 <= root p0.
  Hypothesis Small : blen F < 10 ^ 10.

  Theorem save_core : exists p' ins os last enc, locks (s_prot s) (objs p') os enc /\ F = toStream os last (root p') enc /\
    NoDup (map oid (objs p')) /\ 0 <= last /\ (forall o, In o (objs p') -> oid o <= last) /\ saved_document w s s' rid ts fi xi srcs p' ins.
  Proof.
    destruct (save_steps _ _ _ _ _ _ Save Fr) as (order & order2 & fs1 & next & p1 & idx & p4 & names & p5 & os & enc & St). cbv zeta in St.
    destruct St as (P1 & P2 & Eb & Ef & Ei & Ec & HLk & EF & Es & Eis).
    set (fonts := map (fun h => (Z.of_nat h, match nth_error fs1 h with Some f => fd_id f | None => 0 end)) order) in *.
    set (imgs := img_objs (s_imgs s) next) in *. set (new := flat_map (objs_at (fold_left set_index idx fs1)) order2) in *.
    assert (En : new = flat_map (objs_at fs1) order2) by (unfold new; apply flat_map_ext; intros h; apply set_index_objs).
    assert (NDo : NoDup order) by (eapply Permutation_NoDup; [symmetry; exact P1|exact Names]).
    destruct (build_fonts_ids _ _ _ _ _ _ Eb NDo) as (Le & Nd & Fo & Ex). rewrite Forall_forall in Fo.
    destruct (injectFonts_ids _ _ _ _ _ Ef) as [I1 R1].
    destruct (injectImgs_ids _ _ _ _ _ Ei) as [I4 R4]. cbn [objs root] in I4, R4.
    destruct (injectContent_ids _ _ _ _ _ _ _ Ec) as [I5 R5].
    assert (P21 : Permutation order2 order) by (rewrite P1; exact P2).
    assert (Pn : Permutation (map oid new) (flat_map (ids_at fs1) order)) by (rewrite En, objs_ids; apply Permutation_flat_map; exact P21).
    destruct (img_objs_ids (s_imgs s) next) as [Di Fi]. fold imgs in Di, Fi. rewrite Forall_forall in Fi.
    assert (Len : List.length imgs = List.length (s_imgs s)) by apply img_objs_len.
    pose proof (td_unique _ _ _ _ (rd_fonts _ _ _ _ _ RD)) as N0.
    assert (Old : forall o, In o (objs p1) -> oid o <= maxID (objs p0)).
    { intros o Ho. apply (in_map oid) in Ho. rewrite I1 in Ho. apply in_map_iff in Ho. destruct Ho as (o' & <- & Ho). apply maxID_ge. exact Ho. }
    assert (Nnew : forall i, In i (map oid new) -> maxID (objs p0) < i <= next) by (intros i Hi; apply Fo; eapply Permutation_in; [exact Pn|exact Hi]).
    assert (Rng : forall i, In i (map oid (new ++ imgs)) -> maxID (objs p0) < i <= next + Z.of_nat (List.length imgs)).
    { intros i Hi. rewrite map_app in Hi. apply in_app_or in Hi. destruct Hi as [Hi|Hi]; [apply Nnew in Hi; lia|]. apply Fi in Hi. lia. }
    assert (N3 : NoDup (map oid (objs p1 ++ new ++ imgs))).
    { rewrite !map_app. apply nodup_join; [rewrite I1; exact N0| |].
      - apply nodup_join; [eapply Permutation_NoDup; [symmetry; exact Pn|exact Nd]|exact Di|]. intros i X Y. apply Nnew in X. apply Fi in Y. lia.
      - intros i X Y. apply in_map_iff in X. destruct X as (o & <- & X). apply Old in X. rewrite <- map_app in Y. apply Rng in Y. lia. }
    assert (N5 : NoDup (map oid (objs p5))) by (rewrite I5, I4; exact N3).
    set (last := next + Z.of_nat (List.length imgs)) in *. pose proof (maxID_nonneg (objs p0)) as Pos.
    assert (Lp : 0 <= last) by (unfold last; lia).
    assert (Le5 : forall o, In o (objs p5) -> oid o <= last).
    { intros o Ho. apply (in_map oid) in Ho. rewrite I5, I4, map_app in Ho. apply in_app_or in Ho. destruct Ho as [Ho|Ho]; [|apply Rng in Ho; lia].
      apply in_map_iff in Ho. destruct Ho as (o' & <- & Ho). apply Old in Ho. unfold last. lia. }
    assert (Lb : last < 10 ^ 10) by (apply (size_bound os last (root p5) enc); [exact Lp|rewrite <- EF; exact Small]).
    assert (Er : root p5 = root p0) by congruence.
    assert (Ii : Forall is_int (map oid imgs)).
    { apply Forall_forall. intros i Hi. apply Fi in Hi. unfold is_int. assert (X : 10 ^ 10 < 2 ^ 63) by reflexivity. unfold last in Lb. lia. }
    pose proof (images_step _ _ _ _ _ RD _ _ _ _ Fr Ef _ _ _ _ N3 Ei Ii) as IA.
    set (X := fun j => In j (content_ids srcs)).
    pose proof (frame04 _ _ _ _ _ RD _ _ _ _ Fr Ef _ _ _ _ N3 IA) as S04.
    pose proof (top04 _ _ _ _ _ RD _ _ _ _ Fr Ef _ _ _ _ N3 IA) as T04.
    pose proof (page04 _ _ _ _ _ RD _ _ _ _ Fr Ef _ _ _ _ N3 IA X Apart) as P04.
    pose proof (fonts_perm _ _ _ _ _ RD _ _ _ _ Fr Ef) as Pm.
    assert (T4 : page_tree p4 (Node rid ts)) by (apply (tree_grown p0); [apply (rd_tree _ _ _ _ _ RD)|congruence|]; intros j Hj ps D; destruct (T04 j ps Hj D) as (ps' & D' & W' & _); exists ps'; auto).
    pose proof (getPageObjIDs_leaves p4 (Node rid ts) fuel T4 Deep) as Gp. cbn [leaves] in Gp.
    pose proof (td_distinct _ _ _ _ (rd_fonts _ _ _ _ _ RD)) as Nt.
    assert (Lt : forall L, In L ids -> In L top) by (intros L HL; apply (leaf_in' _ _ _ _ (rd_fonts _ _ _ _ _ RD)); exact HL).
    assert (S4 : Forall2 (source (w_inflate w) (objs p4)) ids srcs).
    { apply (forall2_in _ _ _ _ _ _ Src). intros L src HL Hs. apply (source_same _ _ _ (fun j => page_object ids fi j \/ In j top)).
      - intros j. destruct (page_object_dec ts fi j) as [H|H]; [left; left; exact H|]. destruct (in_dec Z.eq_dec j top) as [H'|H']; [left; right; exact H'|]. right. apply S04; auto.
      - intros j [H|H]; [eapply page_object_dict; eauto|]. apply (tree_dicts _ _ _ (rd_tree _ _ _ _ _ RD)). exact H.
      - intros ps D. destruct (T04 L ps (Lt L HL) D) as (ps' & D' & _ & C'). exists ps'. auto.
      - intros cid t -> H. assert (Hc : In cid (content_ids srcs)) by (apply in_flat_map; exists (Some (cid, t)); split; [exact Hs|left; reflexivity]).
        apply Apart in Hc. tauto. }
    assert (Cs : exists ins, map (content_of (s_fonts s') (s_imgs s')) (s_cont s) = calls ins).
    { unfold injectContent in Ec. apply bind_ok in Ec as (m & Em & _). rewrite <- Es, <- Eis in Em. eapply all_drawn. exact Em. }
    destruct Cs as (ins & Cs). rewrite <- Es, <- Eis, Cs in Ec.
    destruct (content_at (ch_ord ch) (w_inflate w) p4 ids srcs ins fuel (ch_beyond ch) Fr Gp S4) as (p5' & Ec' & Eff).
    assert (p5' = p5) by congruence. subst p5'. clear Ec'.
    assert (S45 : forall j, ~ X j -> same_at (objs p4) (objs p5) j).
    { intros j Nx o V. apply (effect_elsewhere _ _ _ _ _ _ Eff); [|exact V]. intros k t W. apply Nx. eapply writes_id; eauto. }
    assert (Xm : forall j, X j -> j <= maxID (objs p0)).
    { intros j Hj. unfold X, content_ids in Hj. apply in_flat_map in Hj. destruct Hj as (src & Hs & Hj). destruct src as [[cid t]|]; [|destruct Hj]. destruct Hj as [<-|[]].
      assert (exists L, source (w_inflate w) (objs p0) L (Some (cid, t))) as (L & Sc).
      { clear - Src Hs. induction Src as [|x y l m H Hs' IH]; [destruct Hs|]. destruct Hs as [->|Hs]; eauto. }
      destruct (source_version _ _ _ _ _ Sc) as (co & V). rewrite <- (version_oid _ _ _ V). apply maxID_ge, (version_in _ _ _ V). }
    assert (Dm : forall j ps, dict (objs p0) j ps -> j <= maxID (objs p0)) by (intros j ps (o & V & _); rewrite <- (version_oid _ _ _ V); apply maxID_ge, (version_in _ _ _ V)).
    assert (Tm : forall j, In j top -> j <= maxID (objs p0)).
    { intros j Hj. destruct (tree_objects _ _ _ (rd_tree _ _ _ _ _ RD) j Hj) as (o & V). rewrite <- (version_oid _ _ _ V). apply maxID_ge, (version_in _ _ _ V). }
    destruct (added_kept (objs p1) (new ++ imgs) (objs p5) N3) as (os1 & E5 & Eo1); [congruence| |].
    { intros j Hj. apply Rng in Hj. eapply same_trans; [apply alike_same, (ia_same _ _ _ _ _ _ _ _ _ _ _ _ IA); [|intros _ It; apply Tm in It; lia]|].
      - intros L HL Hh. destruct (page_object_dict _ _ _ _ _ RD j) as (ps & D); [eapply holder_page; eauto|]. apply Dm in D. lia.
      - apply S45. intros Hx. apply Xm in Hx. lia. }
    exists (mkPdf (root p0) (objs p5)), ins, os, last, enc. split; [exact HLk|]. split; [cbn [root]; rewrite <- Er; exact EF|].
    split; [exact N5|]. split; [exact Lp|]. split; [exact Le5|]. constructor.
    - reflexivity.
    - apply (tree_same p4); [exact T4|cbn [root]; congruence|]. cbn [objs]. intros j Hj. apply S45. intros Hx. apply Apart in Hx. rewrite R4, R1 in Hj. tauto.
    - intros j o V Np Nw Nt'. cbn [objs root] in *. apply (effect_elsewhere _ _ _ _ _ _ Eff Nw). apply S04; auto.
    - intros j ps Hj D. cbn [objs root] in *. destruct (T04 j ps Hj D) as (ps' & D' & W & _). exists ps'. split; [|exact W]. apply (same_entries (objs p4)); [|exact D'].
      apply S45. intros Hx. apply Apart in Hx. tauto.
    - intros L ps v rps HL D V P. assert (Nr : xi L <> NoRes).
      { intros E. destruct (page_of _ _ _ _ (rd_images _ _ _ _ _ RD) L HL) as (ps0 & (D0 & P0) & _). rewrite E in P0. apply P0. rewrite (dict_fun _ _ _ _ D0 D). eapply value_has; eauto. }
      destruct (P04 L HL Nr) as (ps0 & v0 & rps0 & ps' & v' & rps' & Ch & Do & Vo & Po & Kv & _). assert (rps = rps0) by (eapply chain_points; eauto). subst rps0.
      exists ps', v', rps'. cbn [objs]. split; [destruct Do as (Nx & Do); apply (same_entries (objs p4)); [apply S45; exact Nx|exact Do]|]. split; [exact Vo|]. split; [eapply off_same; [exact S45|exact Po]|exact Kv].
    - intros L fps HL Pf. destruct (page_of _ _ _ _ (rd_fonts _ _ _ _ _ RD) L HL) as (psL & PL & _). apply (page_place _ _ _ _ _ _ PL) in Pf. rewrite <- offered_is in Pf.
      assert (Nr : xi L <> NoRes). { intros E. apply (same_place _ _ _ _ _ RD L HL) in E. rewrite E in Pf. discriminate. }
      destruct (P04 L HL Nr) as (ps0 & v0 & rps0 & ps' & v' & rps' & _ & Do & Vo & Po & _ & Fa & _). destruct (Fa fps Pf) as (u & fps' & Vu & Pu & FA). clear Fa.
      exists fps'. split; [apply (page_off_same X _ (objs p4)); [exact S45|]; exists ps', v', rps', u; auto 6|]. split; [apply (fa_old _ _ _ _ FA)|].
      intros name h f Hin Hf Bu. assert (Ho : In h order) by (eapply Permutation_in; [symmetry; exact P1|]; apply in_map_iff; exists (name, h); auto).
      destruct (fonts_embedded w order (s_fonts s) (maxID (objs p0)) fs1 next os1 imgs Eb NDo) with (k := h) (f := f) (ids' := order2) as (f1 & E1 & Gt & Em); auto.
      { rewrite map_app, Eo1, I1. apply nodup_join; [exact N0|exact Di|]. intros i H1 H2. rewrite <- I1 in H1. apply in_map_iff in H1. destruct H1 as (o & <- & H1).
        apply Old in H1. apply Fi in H2. lia. }
      { intros o H. apply (in_map oid) in H. rewrite Eo1 in H. apply in_map_iff in H. destruct H as (o' & <- & H). apply Old. exact H. }
      { intros o H. apply (in_map oid) in H. apply Fi in H. lia. }
      assert (Hz : In (Z.of_nat h) (map fst idx)).
      { eapply Permutation_in; [symmetry; apply Pm|]. unfold fonts. rewrite map_map. apply in_map_iff. exists h. auto. }
      apply in_map_iff in Hz. destruct Hz as ((h' & i) & Eh & Hi). cbn [fst] in Eh. subst h'.
      destruct (fa_new _ _ _ _ FA _ _ Hi) as (id & Hid & Nm). unfold fonts in Hid. apply in_map_iff in Hid. destruct Hid as (h2 & E2 & _).
      injection E2 as E2 E3. apply Nat2Z.inj in E2. subst h2. rewrite E1 in E3. subst id.
      destruct (set_index_at idx fs1 h i f1) as (f' & A1 & A2 & A3); [|exact Hi|exact E1|].
      { rewrite <- (map_map fst Z.to_nat). eapply Permutation_NoDup; [symmetry; apply (Permutation_map Z.to_nat Pm)|]. unfold fonts. rewrite !map_map. cbn [fst]. erewrite map_ext; [rewrite map_id; exact NDo|]. intros a. apply Nat2Z.id. }
      exists f'. rewrite Es. split; [exact A1|]. rewrite A2, A3. split; [|cbn [objs]; rewrite E5, En; exact Em].
      apply Nm. assert (Hb : In (fd_id f1) (flat_map (ids_at fs1) order)) by (apply in_flat_map; exists h; split; [exact Ho|unfold ids_at; rewrite E1; left; reflexivity]).
      apply Fo in Hb. assert (Y : 10 ^ 10 < 2 ^ 63) by reflexivity. unfold is_int. unfold last in Lb. lia.
    - intros L HL Pc. destruct (P04 L HL (proj1 Pc)) as (ps0 & v0 & rps0 & ps' & v' & rps' & _ & Do & Vo & Po & _ & _ & Xa). destruct (Xa Pc) as (x & xps' & Vx & Px & Nmd & Ko). clear Xa.
      exists xps'. split; [apply (page_off_same X _ (objs p4)); [exact S45|]; exists ps', v', rps', x; auto 6|]. split.
      { intros xps k n Pi. apply Ko. destruct (page_of _ _ _ _ (rd_images _ _ _ _ _ RD) L HL) as (psL & PL & _). rewrite offered_is. apply (page_place _ _ _ _ _ _ PL). exact Pi. }
      intros h i Hi. pose proof (img_objs_nth _ next _ _ Hi) as Ho. fold imgs in Ho. set (n := next + 1 + Z.of_nat h) in *.
      destruct (forall2_nth _ _ _ _ _ h n Nmd) as (nm & En' & Fn); [rewrite (map_nth_error _ _ _ Ho); reflexivity|].
      exists (mkImage (im_data i) (fst nm) (snd nm)), n. split; [rewrite Eis; rewrite (map_nth_error _ _ _ (combine_at _ _ _ _ _ _ _ Hi En')); reflexivity|].
      split; [reflexivity|]. split; [exact Fn|]. cbn [objs]. apply (the_object_in (objs p5) (mkObj n (im_data i))); [|exact N5]. rewrite E5. apply in_or_app. right. apply in_or_app. right.
      eapply nth_error_In; exact Ho.
    - apply drawn_calls. exact Cs.
    - intros k L cid t HL W Last. destruct (forall2_nth _ _ _ _ _ _ _ S4 HL) as (src & Es' & Sc). pose proof W as (_ & W2 & _). rewrite W2 in Es'. injection Es' as <-.
      inversion Sc as [|o ps v cid' co cps raw t' V E O Rv Vc ST PS Dc Eq]; subst cid' t'. cbn [objs].
      destruct (unique_written _ _ _ _ _ _ _ _ Eff N5 W Last Vc) as (co' & Vc' & Pl). exists o, ps, v, co'. split; [|auto 6].
      apply S45; [|exact V]. intros Hx. apply Apart in Hx. apply nth_error_In in HL. apply Lt in HL. tauto.
  Qed.
End Whole.

Theorem save_whole : forall w fuel ch s s' F rid ts fi xi srcs,
  saveTo w fuel ch s = Ok (s', Ok F) -> fair (ch_ord ch) -> s_prot s = None -> NoDup (map snd (names_of s)) ->
  ready_document (d_pdf (s_doc s)) rid ts fi xi ->
  Forall2 (source (w_inflate w) (objs (d_pdf (s_doc s)))) (flat_map leaves ts) srcs ->
  (forall c, In c (content_ids srcs) -> ~ In c (root (d_pdf (s_doc s)) :: rid :: flat_map tree_ids ts) /\ ~ page_object (flat_map leaves ts) fi c) ->
  (depth (Node rid ts) <= fuel)%nat -> 0 <= root (d_pdf (s_doc s)) -> blen F < 10 ^ 10 ->
  exists p' ins, file_of F p' /\ saved_document w s s' rid ts fi xi srcs p' ins.
Proof.
  intros w fuel ch s s' F rid ts fi xi srcs H Fr Pr Nm RD Sr Ap Dp Rt Sm.
  destruct (save_core _ _ _ _ _ _ _ _ _ _ _ H Fr Nm RD Sr Ap Dp Sm) as (p' & ins & os & last & enc & HL & EF & Nd & Lp & Le & SD).
  exists p', ins. split; [|exact SD]. rewrite Pr in HL. destruct HL as (-> & ->). pose proof (sd_root _ _ _ _ _ _ _ _ _ _ SD) as Er.
  rewrite EF in *. destruct p' as [pr po]. cbn [root objs] in *. subst pr. apply file_is; auto.
Qed.
