(** What the crawler collects: every object on the way, once each, with its
    entries in order. *)
From Coq Require Import String List ZArith Lia Bool Permutation.
From Verif Require Import Base BaseProofs Output Props PdfData Crawl CrawlProofs.
Open Scope Z_scope.
Open Scope list_scope.

Definition data_of (os : list obj) (id : Z) : bytes := match getObj id os with Ok o => odata o | _ => [] end.
Definition has_obj (os : list obj) (id : Z) : bool := match getObj id os with Ok _ => true | _ => false end.

(** The items for a dictionary that is entered with [paths] still to follow. *)
Fixpoint img (paths : list bytes) (data : bytes) : list item :=
  match paths with
  | [] => []
  | key :: paths' =>
    match readProperties data with
    | Ok ps => map (fun p =>
        if negb (beqb (pkey p) key) then IStr (pkey p) (pval p)
        else match propertyType (pval p) with
             | PObject => match paths' with [] => IStr (pkey p) (pval p) | _ => ICr (pkey p) (img paths' (pval p)) end
             | PNumber => INone (pkey p)
             | _ => IStr (pkey p) (pval p)
             end) ps
    | _ => []
    end
  end.

(** The objects entered below a dictionary, each with what is left of the path. *)
Fixpoint visits (os : list obj) (paths : list bytes) (data : bytes) : list (Z * list bytes) :=
  match paths with
  | [] => []
  | key :: paths' =>
    match readProperties data with
    | Ok ps => flat_map (fun p =>
        if negb (beqb (pkey p) key) then []
        else match propertyType (pval p) with
             | PDictionary => match readObjID (pval p) with Ok id => (id, paths') :: visits os paths' (data_of os id) | _ => [] end
             | PArray => match readObjIDs (pval p) with
                         | Ok ids => flat_map (fun id => (id, paths') :: visits os paths' (data_of os id)) ids
                         | _ => []
                         end
             | PObject => match paths' with [] => [] | _ => visits os paths' (pval p) end
             | PNumber => []
             end) ps
    | _ => []
    end
  end.

(** Everything on the way can be read. *)
Fixpoint walk (os : list obj) (paths : list bytes) (data : bytes) : bool :=
  match paths with
  | [] => true
  | key :: paths' =>
    match readProperties data with
    | Ok ps => forallb (fun p =>
        if negb (beqb (pkey p) key) then true
        else match propertyType (pval p) with
             | PDictionary => match readObjID (pval p) with Ok id => has_obj os id && walk os paths' (data_of os id) | _ => false end
             | PArray => match readObjIDs (pval p) with
                         | Ok ids => forallb (fun id => has_obj os id && walk os paths' (data_of os id)) ids
                         | _ => false
                         end
             | PObject => match paths' with [] => true | _ => walk os paths' (pval p) end
             | PNumber => true
             end) ps
    | _ => false
    end
  end.

(** Is an object among those entered, and what is collected for it: the items
    of every time it is entered, one after the other. *)
Definition vis (id : Z) (V : list (Z * list bytes)) : bool := existsb (fun v => fst v =? id) V.
Definition collect (os : list obj) (id : Z) (V : list (Z * list bytes)) : list item :=
  flat_map (fun v => if fst v =? id then img (snd v) (data_of os id) else []) V.

(** No object is entered again on the way below it. *)
Definition acyc (os : list obj) (V : list (Z * list bytes)) : Prop :=
  forall id q, In (id, q) V -> vis id (visits os q (data_of os id)) = false.

Lemma vis_app : forall id V W, vis id (V ++ W) = vis id V || vis id W.
Proof. intros. unfold vis. apply existsb_app. Qed.
Lemma vis_in : forall id V, vis id V = true <-> In id (map fst V).
Proof.
  intros id V. unfold vis. rewrite existsb_exists, in_map_iff. split.
  - intros (v & H & E). apply Z.eqb_eq in E. eauto.
  - intros (v & E & H). exists v. split; auto. apply Z.eqb_eq. auto.
Qed.
Lemma collect_app : forall os id V W, collect os id (V ++ W) = collect os id V ++ collect os id W.
Proof. intros. unfold collect. apply flat_map_app. Qed.
Lemma collect_none : forall os id V, vis id V = false -> collect os id V = [].
Proof.
  intros os id. induction V as [|v V IH]; intros H; [reflexivity|]. cbn [vis existsb collect flat_map] in *.
  apply orb_false_iff in H. destruct H as (H1 & H2). rewrite H1. apply IH. auto.
Qed.
Lemma acyc_incl : forall os V W, incl W V -> acyc os V -> acyc os W.
Proof. intros os V W I' A id q H. apply A. apply I'. auto. Qed.

Lemma NoDup_app_l : forall A (a b : list A), NoDup (a ++ b) -> NoDup a.
Proof.
  induction a as [|x a IH]; intros b N; [constructor|]. inversion N; subst. constructor; [|eapply IH; eauto].
  intros H. apply H1. apply in_or_app. auto.
Qed.

Definition put (tgt : option Z) (l : list item) (m : results) : results :=
  match tgt with Some t => upd_key t (fun x => x ++ l) m | None => m end.
Definition here (tgt : option Z) (m : results) : Prop := forall t, tgt = Some t -> mem_key t m = true.

Definition grown (os : list obj) (V : list (Z * list bytes)) (m m' : results) : Prop :=
  (NoDup (map fst m) -> NoDup (map fst m')) /\
  forall id, map_get m' id = match map_get m id with
                             | Some l => Some (l ++ collect os id V)
                             | None => if vis id V then Some (collect os id V) else None
                             end.

Lemma put_get : forall tgt l m id, map_get (put tgt l m) id =
  match map_get m id with
  | Some x => Some (if match tgt with Some t => id =? t | None => false end then x ++ l else x)
  | None => None
  end.
Proof.
  intros [t|] l m id; cbn [put]; [|destruct (map_get m id); reflexivity].
  rewrite get_upd. destruct (id =? t), (map_get m id); reflexivity.
Qed.

Lemma put_keys : forall tgt l m, map fst (put tgt l m) = map fst m.
Proof. intros [t|] l m; [apply keys_upd|reflexivity]. Qed.

Lemma upd_upd : forall A (f g : A -> A) m t, upd_key t f (upd_key t g m) = upd_key t (fun x => f (g x)) m.
Proof.
  induction m as [|[k v] m IH]; intros t; cbn [upd_key]; [reflexivity|].
  destruct (t =? k) eqn:E; cbn [upd_key]; rewrite E; [reflexivity|]. now rewrite IH.
Qed.
Lemma upd_ext : forall A (f g : A -> A) m t, (forall x, f x = g x) -> upd_key t f m = upd_key t g m.
Proof. intros A f g m t H. induction m as [|[k v] m IH]; cbn [upd_key]; [reflexivity|]. rewrite IH, H. reflexivity. Qed.
Lemma put_put : forall tgt a b m, put tgt b (put tgt a m) = put tgt (a ++ b) m.
Proof. intros [t|] a b m; [|reflexivity]. cbn [put]. rewrite upd_upd. apply upd_ext. intros. now rewrite app_assoc. Qed.
Lemma upd_id : forall A (m : list (Z * A)) t, upd_key t (fun x => x) m = m.
Proof. induction m as [|[k v] m IH]; intros t; cbn [upd_key]; [reflexivity|]. rewrite IH. destruct (t =? k); reflexivity. Qed.
Lemma put_nil : forall tgt m, put tgt [] m = m.
Proof. intros [t|] m; [|reflexivity]. cbn [put]. rewrite (upd_ext _ _ (fun x => x)), upd_id; [reflexivity|]. intros. apply app_nil_r. Qed.

Lemma grown_refl : forall os m, grown os [] m m.
Proof. intros os m. split; auto. intros id. cbn. destruct (map_get m id); [rewrite app_nil_r|]; reflexivity. Qed.

Lemma grown_app : forall os V W m m1 m2, grown os V m m1 -> grown os W m1 m2 -> grown os (V ++ W) m m2.
Proof.
  intros os V W m m1 m2 (N1 & G1) (N2 & G2). split; auto. intros id. rewrite G2, G1, vis_app, collect_app.
  destruct (map_get m id) as [l|]; [rewrite app_assoc; reflexivity|].
  destruct (vis id V) eqn:E; cbn [orb]; [reflexivity|]. rewrite (collect_none os id V E). reflexivity.
Qed.

Lemma grown_put : forall os V tgt l m m1, (forall t, tgt = Some t -> vis t V = false) -> here tgt m ->
  grown os V m m1 -> grown os V (put tgt l m) (put tgt l m1).
Proof.
  intros os V tgt l m m1 A H (N & G). split; [rewrite !put_keys; auto|]. intros id. rewrite !put_get, G.
  destruct (map_get m id) as [x|] eqn:E.
  - destruct tgt as [t|]; [|reflexivity]. destruct (Z.eqb_spec id t) as [->|]; [|reflexivity].
    rewrite (collect_none os t V) by auto. now rewrite !app_nil_r.
  - destruct (vis id V); [|reflexivity]. destruct tgt as [t|]; [|reflexivity]. destruct (Z.eqb_spec id t) as [->|]; [|reflexivity].
    exfalso. specialize (H t eq_refl). apply mem_get in H. destruct H as (v & H). congruence.
Qed.

Lemma here_grown : forall os V tgt m m1, here tgt m -> grown os V m m1 -> here tgt m1.
Proof.
  intros os V tgt m m1 H (N & G) t E. specialize (H t E). apply mem_get in H. destruct H as (v & H).
  apply mem_get. rewrite G, H. eauto.
Qed.
Lemma here_put : forall tgt t l m, here tgt m -> here tgt (put t l m).
Proof.
  intros tgt t l m H t0 E. specialize (H t0 E). apply mem_get in H. destruct H as (v & H). apply mem_get. rewrite put_get, H. eauto.
Qed.

Lemma touch_get : forall id m id', map_get (touch id m) id' =
  match map_get m id' with Some l => Some l | None => if id =? id' then Some [] else None end.
Proof.
  intros id m id'. unfold touch. destruct (mem_key id m) eqn:E.
  - destruct (map_get m id') eqn:G; [reflexivity|]. destruct (Z.eqb_spec id id') as [->|]; [|reflexivity].
    apply mem_get in E. destruct E as (v & E). congruence.
  - clear E. induction m as [|[k v] m IH]; cbn [app map_get].
    + rewrite Z.eqb_sym. reflexivity.
    + destruct (id' =? k); [reflexivity|auto].
Qed.
Lemma touch_here : forall id m, here (Some id) (touch id m).
Proof. intros id m t E. inversion E; subst. apply mem_get. rewrite touch_get, Z.eqb_refl. destruct (map_get m t); eauto. Qed.
Lemma touch_nodup : forall id (m : results), NoDup (map fst m) -> NoDup (map fst (touch id m)).
Proof.
  intros id m N. unfold touch. destruct (mem_key id m) eqn:E; [auto|]. rewrite map_app. cbn [map fst].
  apply NoDup_rev in N. rewrite <- (rev_involutive (map fst m ++ [id])). apply NoDup_rev. rewrite rev_app_distr. cbn [rev app].
  constructor; auto. rewrite <- in_rev. intros H. apply mem_in in H. congruence.
Qed.

(** What the recursive call does. *)
Definition does (os : list obj) (paths : list bytes) (rec : crawler) : Prop :=
  forall data tgt m, walk os paths data = true -> acyc os (visits os paths data) -> here tgt m ->
    (forall t, tgt = Some t -> vis t (visits os paths data) = false) ->
    exists m', rec data tgt m = (m', match tgt with Some _ => [] | None => img paths data end, Ok tt) /\
      grown os (visits os paths data) (put tgt (img paths data) m) m'.

Lemma does_obj : forall os paths rec id o m, does os paths rec -> getObj id os = Ok o ->
  walk os paths (data_of os id) = true -> acyc os ((id, paths) :: visits os paths (data_of os id)) ->
  exists m', rec (odata o) (Some id) (touch id m) = (m', [], Ok tt) /\
    grown os ((id, paths) :: visits os paths (data_of os id)) m m'.
Proof.
  intros os paths rec id o m D G W A.
  assert (Ed : odata o = data_of os id) by (unfold data_of; rewrite G; reflexivity). rewrite Ed.
  assert (Ai : vis id (visits os paths (data_of os id)) = false) by (apply (A id paths); left; reflexivity).
  destruct (D (data_of os id) (Some id) (touch id m)) as (m' & E & Gr); auto.
  - eapply acyc_incl; [|exact A]. intros x Hx. right. auto.
  - apply touch_here.
  - intros t Et. inversion Et; subst; auto.
  - exists m'. split; auto. change ((id, paths) :: visits os paths (data_of os id)) with ([(id, paths)] ++ visits os paths (data_of os id)).
    apply grown_app with (m1 := put (Some id) (img paths (data_of os id)) (touch id m)); [|auto].
    split; [rewrite put_keys; apply touch_nodup|]. intros i. rewrite put_get, touch_get.
    unfold vis, collect. cbn [existsb flat_map fst snd]. rewrite orb_false_r, !app_nil_r. rewrite (Z.eqb_sym i id).
    destruct (map_get m i) as [l|]; destruct (Z.eqb_spec id i) as [->|]; try reflexivity. now rewrite app_nil_r.
Qed.

Lemma has_obj_get : forall os id, has_obj os id = true -> exists o, getObj id os = Ok o.
Proof. intros os id H. unfold has_obj in H. destruct (getObj id os); try discriminate. eauto. Qed.

Lemma each_walk : forall os paths rec, does os paths rec -> forall ids m,
  forallb (fun id => has_obj os id && walk os paths (data_of os id)) ids = true ->
  acyc os (flat_map (fun id => (id, paths) :: visits os paths (data_of os id)) ids) ->
  exists m', next_each os rec ids m = (m', Ok tt) /\
    grown os (flat_map (fun id => (id, paths) :: visits os paths (data_of os id)) ids) m m'.
Proof.
  intros os paths rec D. induction ids as [|id ids IH]; intros m W A.
  - exists m. split; [reflexivity|apply grown_refl].
  - cbn [forallb] in W. apply andb_true_iff in W. destruct W as (W & W2). apply andb_true_iff in W. destruct W as (W0 & W1).
    destruct (has_obj_get _ _ W0) as (o & G). cbn [flat_map] in A |- *.
    destruct (does_obj os paths rec id o m D G W1) as (m1 & E1 & G1); [eapply acyc_incl; [|exact A]; apply incl_appl, incl_refl|].
    destruct (IH m1 W2) as (m2 & E2 & G2); [eapply acyc_incl; [|exact A]; apply incl_appr, incl_refl|].
    exists m2. cbn [next_each]. rewrite G, E1. cbn iota. split; [exact E2|]. eapply grown_app; eauto.
Qed.

(** One entry. *)
Definition walk_of (os : list obj) (key : bytes) (paths : list bytes) (p : prop) : bool :=
  if negb (beqb (pkey p) key) then true
  else match propertyType (pval p) with
       | PDictionary => match readObjID (pval p) with Ok id => has_obj os id && walk os paths (data_of os id) | _ => false end
       | PArray => match readObjIDs (pval p) with
                   | Ok ids => forallb (fun id => has_obj os id && walk os paths (data_of os id)) ids
                   | _ => false
                   end
       | PObject => match paths with [] => true | _ => walk os paths (pval p) end
       | PNumber => true
       end.
Definition visit_of (os : list obj) (key : bytes) (paths : list bytes) (p : prop) : list (Z * list bytes) :=
  if negb (beqb (pkey p) key) then []
  else match propertyType (pval p) with
       | PDictionary => match readObjID (pval p) with Ok id => (id, paths) :: visits os paths (data_of os id) | _ => [] end
       | PArray => match readObjIDs (pval p) with
                   | Ok ids => flat_map (fun id => (id, paths) :: visits os paths (data_of os id)) ids
                   | _ => []
                   end
       | PObject => match paths with [] => [] | _ => visits os paths (pval p) end
       | PNumber => []
       end.
Definition item_of (key : bytes) (paths : list bytes) (p : prop) : item :=
  if negb (beqb (pkey p) key) then IStr (pkey p) (pval p)
  else match propertyType (pval p) with
       | PObject => match paths with [] => IStr (pkey p) (pval p) | _ => ICr (pkey p) (img paths (pval p)) end
       | PNumber => INone (pkey p)
       | _ => IStr (pkey p) (pval p)
       end.

Lemma img_cons : forall key paths data ps, readProperties data = Ok ps -> img (key :: paths) data = map (item_of key paths) ps.
Proof. intros. cbn [img]. rewrite H. reflexivity. Qed.
Lemma visits_cons : forall os key paths data ps, readProperties data = Ok ps ->
  visits os (key :: paths) data = flat_map (visit_of os key paths) ps.
Proof. intros. cbn [visits]. rewrite H. reflexivity. Qed.
Lemma walk_cons : forall os key paths data, walk os (key :: paths) data =
  match readProperties data with Ok ps => forallb (walk_of os key paths) ps | _ => false end.
Proof. reflexivity. Qed.

Lemma props_walk : forall os key paths rec, does os paths rec -> forall ps tgt m acc,
  forallb (walk_of os key paths) ps = true ->
  acyc os (flat_map (visit_of os key paths) ps) -> here tgt m ->
  (forall t, tgt = Some t -> vis t (flat_map (visit_of os key paths) ps) = false) ->
  exists m', next_props os key (match paths with [] => true | _ => false end) rec tgt ps m acc =
    (m', match tgt with Some _ => acc | None => acc ++ map (item_of key paths) ps end, Ok tt) /\
    grown os (flat_map (visit_of os key paths) ps) (put tgt (map (item_of key paths) ps) m) m'.
Proof.
  intros os key paths rec D. induction ps as [|p ps IH]; intros tgt m acc W A H O'.
  - exists m. cbn [next_props flat_map map]. rewrite put_nil, app_nil_r. split; [destruct tgt; reflexivity|apply grown_refl].
  - cbn [forallb] in W. apply andb_true_iff in W. destruct W as (W1 & W2). cbn [flat_map map] in *.
    assert (A1 : acyc os (visit_of os key paths p)) by (eapply acyc_incl; [|exact A]; apply incl_appl, incl_refl).
    assert (A2 : acyc os (flat_map (visit_of os key paths) ps)) by (eapply acyc_incl; [|exact A]; apply incl_appr, incl_refl).
    assert (O1 : forall t, tgt = Some t -> vis t (visit_of os key paths p) = false).
    { intros t E. specialize (O' t E). rewrite vis_app in O'. apply orb_false_iff in O'. tauto. }
    assert (O2 : forall t, tgt = Some t -> vis t (flat_map (visit_of os key paths) ps) = false).
    { intros t E. specialize (O' t E). rewrite vis_app in O'. apply orb_false_iff in O'. tauto. }
    (* one entry: it adds the objects [X] and the item [it] *)
    assert (Step : forall X it m1, visit_of os key paths p = X -> item_of key paths p = it -> grown os X m m1 ->
      exists m', (let '(m2, acc1) := emit tgt it m1 acc in
       next_props os key (match paths with [] => true | _ => false end) rec tgt ps m2 acc1) =
      (m', match tgt with Some _ => acc | None => acc ++ item_of key paths p :: map (item_of key paths) ps end, Ok tt) /\
      grown os (visit_of os key paths p ++ flat_map (visit_of os key paths) ps)
        (put tgt (item_of key paths p :: map (item_of key paths) ps) m) m').
    { intros X it m1 EX EI Gr. rewrite EX, EI in *.
      assert (EM : emit tgt it m1 acc = (put tgt [it] m1, match tgt with Some _ => acc | None => acc ++ [it] end)).
      { unfold emit, put. destruct tgt; reflexivity. }
      rewrite EM. assert (H1 : here tgt m1) by (eapply here_grown; eauto).
      destruct (IH tgt (put tgt [it] m1) (match tgt with Some _ => acc | None => acc ++ [it] end)) as (m' & E & G'); auto.
      { apply here_put; auto. }
      exists m'. rewrite E. split; [destruct tgt; [reflexivity|rewrite <- app_assoc; reflexivity]|].
      rewrite put_put in G'. cbn [app] in G'. eapply grown_app; [|exact G']. apply grown_put; auto. }
    cbn [next_props]. unfold walk_of in W1. unfold visit_of in A1.
    destruct (negb (beqb (pkey p) key)) eqn:K.
    + apply (Step [] (IStr (pkey p) (pval p)) m); [unfold visit_of; rewrite K; reflexivity|unfold item_of; rewrite K; reflexivity|apply grown_refl].
    + destruct (propertyType (pval p)) eqn:T.
      * destruct paths as [|k paths].
        -- apply (Step [] (IStr (pkey p) (pval p)) m); [unfold visit_of; rewrite K, T; reflexivity|unfold item_of; rewrite K, T; reflexivity|apply grown_refl].
        -- destruct (D (pval p) None m) as (m1 & E1 & G1); auto; [intros t E; discriminate|intros t E; discriminate|].
           rewrite E1. cbn [put] in G1.
           apply (Step (visits os (k :: paths) (pval p)) (ICr (pkey p) (img (k :: paths) (pval p))) m1);
             [unfold visit_of; rewrite K, T; reflexivity|unfold item_of; rewrite K, T; reflexivity|exact G1].
      * destruct (readObjIDs (pval p)) as [ids|e| |] eqn:R; try discriminate.
        destruct (each_walk os paths rec D ids m W1 A1) as (m1 & E1 & G1). rewrite E1.
        apply (Step (flat_map (fun id => (id, paths) :: visits os paths (data_of os id)) ids) (IStr (pkey p) (pval p)) m1);
          [unfold visit_of; rewrite K, T, R; reflexivity|unfold item_of; rewrite K, T; reflexivity|exact G1].
      * apply (Step [] (INone (pkey p)) m); [unfold visit_of; rewrite K, T; reflexivity|unfold item_of; rewrite K, T; reflexivity|apply grown_refl].
      * destruct (readObjID (pval p)) as [id|e| |] eqn:R; try discriminate. cbn [bind].
        apply andb_true_iff in W1. destruct W1 as (Wa & Wb). destruct (has_obj_get _ _ Wa) as (o & G). rewrite G. cbn [bind].
        destruct (does_obj os paths rec id o m D G Wb A1) as (m1 & E1 & G1). rewrite E1.
        apply (Step ((id, paths) :: visits os paths (data_of os id)) (IStr (pkey p) (pval p)) m1);
          [unfold visit_of; rewrite K, T, R; reflexivity|unfold item_of; rewrite K, T; reflexivity|exact G1].
Qed.

Theorem next_walk : forall os paths, does os paths (next os paths).
Proof.
  intros os. induction paths as [|key paths IH]; intros data tgt m W A H O'.
  - exists m. cbn [next visits img]. rewrite put_nil. split; [destruct tgt; reflexivity|apply grown_refl].
  - cbn [next]. rewrite walk_cons in W. destruct (readProperties data) as [ps|e| |] eqn:R; try discriminate.
    rewrite (visits_cons _ _ _ _ _ R), (img_cons _ _ _ _ R) in *.
    destruct (props_walk os key paths _ IH ps tgt m [] W A H O') as (m' & E & G).
    exists m'. rewrite E. split; [reflexivity|exact G].
Qed.

Definition crawl_from (os : list obj) (id : Z) (paths : list bytes) : list (Z * list bytes) :=
  (id, paths) :: visits os paths (data_of os id).

(** The crawl from [id] goes through and is not circular. *)
Definition smooth (os : list obj) (id : Z) (paths : list bytes) : Prop :=
  has_obj os id = true /\ walk os paths (data_of os id) = true /\ acyc os (crawl_from os id paths).

Theorem crawl_walk : forall os id paths, smooth os id paths ->
  exists m, crawl_run os id paths = (m, Ok tt) /\ NoDup (map fst m) /\
    forall k, map_get m k = if vis k (crawl_from os id paths) then Some (collect os k (crawl_from os id paths)) else None.
Proof.
  intros os id paths (G & W & A). destruct (has_obj_get _ _ G) as (o & Go). unfold crawl_run. rewrite Go.
  destruct (does_obj os paths (next os paths) id o [] (next_walk os paths) Go W A) as (m & E & (N & Gr)).
  exists m. rewrite E. split; [reflexivity|]. split; [apply N; constructor|]. intros k. apply (Gr k).
Qed.
