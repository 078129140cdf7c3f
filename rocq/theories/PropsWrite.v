(** Writing a list of entries with setProperties and reading it back. *)
From Coq Require Import String List ZArith Lia Bool.
From Verif Require Import Base BaseProofs Props PropsFlat.
Open Scope Z_scope.
Open Scope list_scope.

(** ** Running the value part of the machine over one value *)
Inductive vres := VStop | VClosed | VOpen (c1 c2 : Z).

Fixpoint vrun (c1 c2 : Z) (v : bytes) : vres :=
  match v with
  | [] => VOpen c1 c2
  | r :: v' =>
    let c1' := cnt1 r c1 in
    let c2' := cnt2 r c2 in
    let zero := (c1' =? 0) && (c2' =? 0) in
    if ((r =? 93) || (r =? 62)) && zero then match v' with [] => VClosed | _ => VStop end
    else if (r =? 47) && zero then VStop
    else vrun c1' c2' v'
  end.

Lemma upd_last_snoc : forall f ps p, upd_last f (ps ++ [p]) = ps ++ [f p].
Proof.
  induction ps as [|q ps IH]; intros; [reflexivity|].
  cbn [app upd_last]. rewrite IH. destruct (ps ++ [p]) eqn:E; [destruct ps; discriminate|reflexivity].
Qed.

Lemma go_char_ascii : forall c, ascii c -> go_char c = [c].
Proof. intros c H. unfold go_char, ascii in *. destruct (Z.ltb_spec c 128); [auto|lia]. Qed.

Lemma flat_val : forall v b c1 c2 ps k w, Forall ascii v ->
  flat (v ++ b) (MVal c1 c2) (ps ++ [mkProp k w]) =
  match vrun c1 c2 v with
  | VStop => flat (v ++ b) (MVal c1 c2) (ps ++ [mkProp k w])
  | VClosed => flat b MNone (ps ++ [mkProp k (w ++ v)])
  | VOpen d1 d2 => flat b (MVal d1 d2) (ps ++ [mkProp k (w ++ v)])
  end.
Proof.
  induction v as [|r v IH]; intros b c1 c2 ps k w F.
  - cbn [vrun app]. now rewrite app_nil_r.
  - inversion F; subst. cbn [vrun]. cbv zeta.
    destruct (((r =? 93) || (r =? 62)) && ((cnt1 r c1 =? 0) && (cnt2 r c2 =? 0))) eqn:Hc.
    + destruct v as [|r2 v]; [|reflexivity].
      cbn [app flat]. cbv zeta. rewrite Hc. unfold add_val. rewrite upd_last_snoc, go_char_ascii by auto.
      reflexivity.
    + destruct ((r =? 47) && ((cnt1 r c1 =? 0) && (cnt2 r c2 =? 0))) eqn:Hs; [reflexivity|].
      specialize (IH b (cnt1 r c1) (cnt2 r c2) ps k (w ++ [r]) H2).
      destruct (vrun (cnt1 r c1) (cnt2 r c2) v) eqn:V; auto.
      * cbn [app flat]. cbv zeta. rewrite Hc, Hs. unfold add_val. rewrite upd_last_snoc, go_char_ascii by auto.
        cbn [pkey pval]. rewrite IH. rewrite <- app_assoc. reflexivity.
      * cbn [app flat]. cbv zeta. rewrite Hc, Hs. unfold add_val. rewrite upd_last_snoc, go_char_ascii by auto.
        cbn [pkey pval]. rewrite IH. rewrite <- app_assoc. reflexivity.
Qed.

(** Characters allowed in a key. *)
Definition key_char (c : Z) : Prop :=
  ascii c /\ is_ws4 c = false /\ c <> 47 /\ c <> 60 /\ c <> 91.

Lemma flat_key : forall k b ps k0, Forall key_char k ->
  flat (k ++ b) MKey (ps ++ [mkProp k0 []]) = flat b MKey (ps ++ [mkProp (k0 ++ k) []]).
Proof.
  induction k as [|c k IH]; intros b ps k0 F; cbn [app]; [now rewrite app_nil_r|].
  inversion F as [|? ? (H1 & H2 & H3 & H4 & H5) F']; subst. cbn [flat].
  unfold is_ws4 in H2.
  destruct (Z.eqb_spec c 32); [lia|]. destruct (Z.eqb_spec c 60); [lia|].
  destruct (Z.eqb_spec c 91); [lia|]. destruct (Z.eqb_spec c 47); [lia|].
  unfold add_key. rewrite upd_last_snoc, go_char_ascii by auto. cbn [pkey pval].
  rewrite IH by auto. rewrite <- app_assoc. reflexivity.
Qed.

(** ** Rendered entries *)
Record ent := mkEnt { efl : bool; ekey : bytes; eval : bytes }.
Definition rend1 (e : ent) : bytes := [47] ++ ekey e ++ (if efl e then [32] else []) ++ eval e.
Definition rend (es : list ent) : bytes := flat_map rend1 es.

Definition sep_ok (e : ent) : Prop :=
  efl e = false -> eval e = [] \/ exists c v, eval e = c :: v /\ (c = 60 \/ c = 91).

Definition complete (v : bytes) : Prop := vrun 0 0 v = VClosed \/ vrun 0 0 v = VOpen 0 0.
Definition not_stop (v : bytes) : Prop := vrun 0 0 v <> VStop.

Inductive run_ok : list ent -> Prop :=
| ro_nil : run_ok []
| ro_last : forall e, not_stop (eval e) -> run_ok [e]
| ro_cons : forall e es, complete (eval e) -> run_ok es -> run_ok (e :: es).

Definition ready (m : mst) : Prop := m = MNone \/ m = MKey \/ m = MVal 0 0.

Lemma flat_slash : forall m b ps, ready m -> flat (47 :: b) m ps = flat b MKey (ps ++ [mkProp [] []]).
Proof. intros m b ps [->|[->| ->]]; reflexivity. Qed.

Definition ent_prop (e : ent) : prop := mkProp (ekey e) (eval e).

Definition ent_ascii (e : ent) : Prop := Forall key_char (ekey e) /\ Forall ascii (eval e) /\ sep_ok e.

(** After one entry the machine has read exactly that entry. *)
Lemma flat_ent : forall e b m ps, ready m -> ent_ascii e ->
  flat (rend1 e ++ b) m ps =
  match vrun 0 0 (eval e) with
  | VStop => flat (rend1 e ++ b) m ps
  | VClosed => flat b MNone (ps ++ [ent_prop e])
  | VOpen c1 c2 => if efl e then flat b (MVal c1 c2) (ps ++ [ent_prop e])
                   else match eval e with
                        | [] => flat b MKey (ps ++ [ent_prop e])
                        | _ => flat b (MVal c1 c2) (ps ++ [ent_prop e])
                        end
  end.
Proof.
  intros [fl k v] b m ps R (Hk & Hv & Hs). unfold rend1, ent_prop, sep_ok in *. cbn [efl ekey eval] in *.
  destruct (vrun 0 0 v) as [| |c1 c2] eqn:V; auto.
  - rewrite <- !app_assoc. cbn [app]. rewrite flat_slash by auto. rewrite flat_key by auto. cbn [app].
    destruct fl.
    + cbn [app flat Z.eqb Pos.eqb]. rewrite flat_val, V by auto. reflexivity.
    + destruct (Hs eq_refl) as [->|(c & v' & -> & Hc)]; [discriminate|].
      assert (E : flat (c :: v' ++ b) MKey (ps ++ [mkProp k []]) = flat ((c :: v') ++ b) (MVal 0 0) (ps ++ [mkProp k []])).
      { destruct Hc as [-> | ->]; reflexivity. }
      cbn [app]. rewrite E, flat_val, V by auto. reflexivity.
  - rewrite <- !app_assoc. cbn [app]. rewrite flat_slash by auto. rewrite flat_key by auto. cbn [app].
    destruct fl.
    + cbn [app flat Z.eqb Pos.eqb]. rewrite flat_val, V by auto. reflexivity.
    + destruct (Hs eq_refl) as [->|(c & v' & -> & Hc)]; [reflexivity|].
      assert (E : flat (c :: v' ++ b) MKey (ps ++ [mkProp k []]) = flat ((c :: v') ++ b) (MVal 0 0) (ps ++ [mkProp k []])).
      { destruct Hc as [-> | ->]; reflexivity. }
      cbn [app]. rewrite E, flat_val, V by auto. reflexivity.
Qed.

Lemma flat_rend : forall es m ps, ready m -> Forall ent_ascii es -> run_ok es ->
  flat (rend es) m ps = ps ++ map ent_prop es.
Proof.
  induction es as [|e es IH]; intros m ps R F RO.
  - cbn. now rewrite app_nil_r.
  - inversion F; subst. unfold rend. cbn [flat_map map]. rewrite flat_ent by auto.
    inversion RO as [|? Hn|? ? Hc Hr]; subst.
    + cbn [flat_map map]. unfold not_stop in Hn. destruct (vrun 0 0 (eval e)); [congruence| |].
      * reflexivity.
      * destruct (efl e); [reflexivity|]. destruct (eval e); reflexivity.
    + assert (G : forall m, ready m -> flat (flat_map rend1 es) m (ps ++ [ent_prop e]) = ps ++ ent_prop e :: map ent_prop es).
      { intros m' Hm'. change (flat_map rend1 es) with (rend es). rewrite IH by auto.
        rewrite <- app_assoc. reflexivity. }
      destruct Hc as [Hc|Hc]; rewrite Hc.
      * apply G. left; auto.
      * destruct (efl e); [apply G; right; right; auto|].
        destruct (eval e); apply G; [right; left|right; right]; auto.
Qed.

(** ** White-space normalisation of rendered entries *)
Definition hd_nws (s : bytes) : Prop := match s with [] => True | c :: _ => is_ws4 c = false end.
Definition last_nws (s : bytes) : Prop := hd_nws (rev s).
Definition slash_or_nil (b : bytes) : Prop := match b with [] => True | c :: _ => c = 47 end.

Lemma collapse_app : forall a b, hd_nws b -> collapse (a ++ b) = collapse a ++ collapse b.
Proof.
  induction a as [|c a IH]; intros b H; [reflexivity|].
  cbn [app collapse]. destruct (is_ws4 c) eqn:E.
  - destruct a as [|d a].
    + cbn [app]. destruct b as [|d b]; [reflexivity|]. cbn [hd_nws] in H. rewrite H. reflexivity.
    + cbn [app]. destruct (is_ws4 d) eqn:D.
      * apply (IH b H).
      * cbn [app]. f_equal. apply (IH b H).
  - cbn [app]. f_equal. auto.
Qed.

Lemma collapse_nows : forall a, Forall (fun c => is_ws4 c = false) a -> collapse a = a.
Proof. induction 1; cbn [collapse]; auto. rewrite H. congruence. Qed.

Lemma skip_ws_hd : forall s, hd_nws s -> skip_ws s = s.
Proof. intros [|c s] H; [reflexivity|]. cbn in *. rewrite H. reflexivity. Qed.

Lemma skip_ws_app : forall a b, skip_ws a <> [] -> skip_ws (a ++ b) = skip_ws a ++ b.
Proof.
  induction a as [|c a IH]; intros b H; cbn [skip_ws app] in *; [congruence|].
  destruct (is_ws4 c); auto.
Qed.

Lemma skip_ws_last : forall a, last_nws a -> a <> [] -> skip_ws a <> [].
Proof.
  induction a as [|c a IH]; intros H Hn; [congruence|].
  cbn [skip_ws]. destruct (is_ws4 c) eqn:E; [|discriminate].
  unfold last_nws in *. cbn [rev] in H. destruct a as [|d a].
  - cbn in H. congruence.
  - apply IH; [|discriminate].
    destruct (rev (d :: a)) eqn:R; [apply (f_equal (@rev Z)) in R; rewrite rev_involutive in R; discriminate|].
    exact H.
Qed.

Lemma last_nws_tail : forall c a, last_nws (c :: a) -> a <> [] -> last_nws a.
Proof.
  intros c a H Hn. unfold last_nws in *. cbn [rev] in H.
  destruct (rev a) eqn:E; [apply (f_equal (@rev Z)) in E; rewrite rev_involutive in E; cbn in E; congruence|].
  exact H.
Qed.

Lemma last_nws_1 : forall c, last_nws [c] -> is_ws4 c = false.
Proof. intros c H. exact H. Qed.

(** A pattern cannot match across the end of [x] into [b]. *)
Definition no_straddle (pat b : bytes) : Prop := forall x, x <> [] -> prefixb pat (x ++ b) = prefixb pat x.

Lemma no_straddle_1 : forall p b, no_straddle [p] b.
Proof. intros p b [|c x] H; [congruence|]. cbn. reflexivity. Qed.

Lemma no_straddle_2 : forall p q b, slash_or_nil b -> q <> 47 -> no_straddle [p; q] b.
Proof.
  intros p q b Hb Hq [|c [|d x]] H; [congruence| |reflexivity].
  cbn. destruct b as [|e b]; [reflexivity|]. cbn in Hb. subst e.
  destruct (Z.eqb_spec q 47); [congruence|]. destruct (p =? c); reflexivity.
Qed.

Lemma strip_app : forall pat a b, (a = [] \/ last_nws a) -> no_straddle pat b ->
  strip pat (a ++ b) = strip pat a ++ strip pat b.
Proof.
  induction a as [|c a IH]; intros b Ha Hs; [reflexivity|].
  assert (Ha' : last_nws (c :: a)) by (destruct Ha; [discriminate|auto]).
  cbn [app strip].
  assert (IH' : strip pat (a ++ b) = strip pat a ++ strip pat b).
  { apply IH; auto. destruct a; auto. right. apply last_nws_tail in Ha'; auto. discriminate. }
  destruct (is_ws4 c) eqn:E.
  - assert (a <> []). { intros ->. apply last_nws_1 in Ha'. congruence. }
    rewrite skip_ws_app by (apply skip_ws_last; auto; eapply last_nws_tail; eauto).
    rewrite Hs by (apply skip_ws_last; auto; eapply last_nws_tail; eauto).
    cbn [andb]. destruct (prefixb pat (skip_ws a)); cbn [app]; congruence.
  - cbn [andb app]. congruence.
Qed.

Lemma strip_nows : forall pat a b, Forall (fun c => is_ws4 c = false) a -> strip pat (a ++ b) = a ++ strip pat b.
Proof. induction 1; cbn [app strip]; auto. rewrite H. cbn [andb]. congruence. Qed.

Lemma strip_space : forall pat t, hd_nws t ->
  strip pat (32 :: t) = if prefixb pat t then strip pat t else 32 :: strip pat t.
Proof. intros. cbn [strip]. rewrite skip_ws_hd by auto. reflexivity. Qed.

Lemma strip_hd : forall pat c s, is_ws4 c = false -> strip pat (c :: s) = c :: strip pat s.
Proof. intros. cbn [strip]. rewrite H. reflexivity. Qed.

Lemma strip_nonnil : forall pat s, s <> [] -> last_nws s -> strip pat s <> [] /\ last_nws (strip pat s).
Proof.
  induction s as [|c s IH]; intros Hn Hl; [congruence|].
  destruct s as [|d s].
  - apply last_nws_1 in Hl. cbn [strip]. rewrite Hl. cbn [andb]. split; [discriminate|exact Hl].
  - destruct (IH ltac:(discriminate) (last_nws_tail _ _ Hl ltac:(discriminate))) as [I1 I2].
    change (strip pat (c :: d :: s)) with
      (if is_ws4 c && prefixb pat (skip_ws (d :: s)) then strip pat (d :: s) else c :: strip pat (d :: s)).
    destruct (is_ws4 c && prefixb pat (skip_ws (d :: s))); [auto|].
    split; [discriminate|]. unfold last_nws in *. cbn [rev].
    destruct (rev (strip pat (d :: s))) eqn:R; [|exact I2].
    apply (f_equal (@rev Z)) in R. rewrite rev_involutive in R. cbn [rev] in R. congruence.
Qed.

Lemma collapse_nonnil : forall s, s <> [] -> last_nws s -> collapse s <> [] /\ last_nws (collapse s).
Proof.
  induction s as [|c s IH]; intros Hn Hl; [congruence|].
  destruct s as [|d s].
  - apply last_nws_1 in Hl. cbn [collapse]. rewrite Hl. split; [discriminate|exact Hl].
  - destruct (IH ltac:(discriminate) (last_nws_tail _ _ Hl ltac:(discriminate))) as [I1 I2].
    change (collapse (c :: d :: s)) with
      (if is_ws4 c then if is_ws4 d then collapse (d :: s) else 32 :: collapse (d :: s) else c :: collapse (d :: s)).
    assert (G : forall x, x :: collapse (d :: s) <> [] /\ last_nws (x :: collapse (d :: s))).
    { intros x. split; [discriminate|]. unfold last_nws in *. cbn [rev].
      destruct (rev (collapse (d :: s))) eqn:R; [|exact I2].
      apply (f_equal (@rev Z)) in R. rewrite rev_involutive in R. cbn [rev] in R. congruence. }
    destruct (is_ws4 c); [destruct (is_ws4 d)|]; auto.
Qed.

Lemma collapse_hd : forall c s, is_ws4 c = false -> collapse (c :: s) = c :: collapse s.
Proof. intros. cbn [collapse]. rewrite H. reflexivity. Qed.

(** Value shape that is stable under normalisation. *)
Definition shape (v : bytes) : Prop :=
  v = [] \/ exists c w, v = c :: w /\ is_ws4 c = false /\ c <> 47 /\ c <> 93 /\ last_nws v.

Lemma shape_strip : forall pat v, shape v -> shape (strip pat v).
Proof.
  intros pat v [->|(c & w & -> & H1 & H2 & H3 & H4)]; [left; reflexivity|]. right.
  destruct (strip_nonnil pat (c :: w) ltac:(discriminate) H4) as [_ L].
  rewrite strip_hd in * by auto. eauto 10.
Qed.

Lemma shape_collapse : forall v, shape v -> shape (collapse v).
Proof.
  intros v [->|(c & w & -> & H1 & H2 & H3 & H4)]; [left; reflexivity|]. right.
  destruct (collapse_nonnil (c :: w) ltac:(discriminate) H4) as [_ L].
  rewrite collapse_hd in * by auto. eauto 10.
Qed.

Lemma shape_hd : forall v b, shape v -> slash_or_nil b -> hd_nws (v ++ b).
Proof.
  intros v b [->|(c & w & -> & H & _)] Hb; cbn; auto.
  destruct b; cbn in *; auto. subst. reflexivity.
Qed.

Lemma shape_last : forall v, shape v -> v = [] \/ last_nws v.
Proof. intros v [->|(c & w & -> & H1 & H2 & H3 & H4)]; auto. Qed.

Lemma key_nows : forall k, Forall key_char k -> Forall (fun c => is_ws4 c = false) (47 :: k).
Proof. intros. constructor; auto. eapply Forall_impl; [|eassumption]. intros a (_ & H1 & _). auto. Qed.

Lemma rend_slash : forall es, slash_or_nil (rend es).
Proof. intros [|e es]; cbn; auto. Qed.

Definition ent_ok (e : ent) : Prop := Forall key_char (ekey e) /\ shape (eval e).

(** One stripping step on rendered entries. *)
Fixpoint strip_ents (pat : bytes) (es : list ent) : list ent :=
  match es with
  | [] => []
  | e :: es' =>
    mkEnt (efl e && negb (prefixb pat (eval e ++ rend es'))) (ekey e) (strip pat (eval e)) :: strip_ents pat es'
  end.

Definition pat_ok (pat : bytes) : Prop := forall b, slash_or_nil b -> no_straddle pat b.

Lemma strip_rend : forall pat es, pat_ok pat -> pat <> [] -> Forall ent_ok es ->
  strip pat (rend es) = rend (strip_ents pat es).
Proof.
  intros pat es HP Hne. induction es as [|e es IH]; intros F; [reflexivity|].
  inversion F as [|? ? [Hk Hv] F']; subst.
  unfold rend. cbn [flat_map strip_ents]. fold (rend es) (rend (strip_ents pat es)).
  unfold rend1 at 1. rewrite <- !app_assoc.
  change ([47] ++ ekey e ++ (if efl e then [32] else []) ++ eval e ++ rend es)
    with ((47 :: ekey e) ++ (if efl e then [32] else []) ++ eval e ++ rend es).
  rewrite strip_nows by (apply key_nows; auto).
  unfold rend1. cbn [efl ekey eval]. rewrite <- !app_assoc. cbn [app]. do 2 f_equal.
  rewrite <- IH by auto.
  assert (S1 : strip pat (eval e ++ rend es) = strip pat (eval e) ++ strip pat (rend es)).
  { apply strip_app; [apply shape_last; auto | apply HP, rend_slash]. }
  destruct (efl e); cbn [andb app].
  - rewrite strip_space by (apply shape_hd; auto; apply rend_slash).
    destruct (prefixb pat (eval e ++ rend es)); cbn [negb app]; rewrite S1; reflexivity.
  - exact S1.
Qed.

Definition collapse_ents (es : list ent) : list ent :=
  map (fun e => mkEnt (efl e) (ekey e) (collapse (eval e))) es.

Lemma collapse_rend : forall es, Forall ent_ok es -> collapse (rend es) = rend (collapse_ents es).
Proof.
  induction es as [|e es IH]; intros F; [reflexivity|].
  inversion F as [|? ? [Hk Hv] F']; subst.
  unfold rend. cbn [flat_map collapse_ents map]. fold (rend es).
  unfold rend1 at 1. rewrite <- !app_assoc.
  assert (Hb : hd_nws (eval e ++ rend es)) by (apply shape_hd; auto; apply rend_slash).
  rewrite !app_assoc. rewrite <- (app_assoc _ (eval e)).
  rewrite collapse_app by auto. rewrite (collapse_app (eval e)) by (destruct es; cbn; auto).
  fold (collapse_ents es). fold (rend (collapse_ents es)). rewrite <- IH by auto.
  unfold rend1. cbn [efl ekey eval]. rewrite <- !app_assoc. 
  assert (C : collapse ([47] ++ ekey e ++ (if efl e then [32] else [])) = [47] ++ ekey e ++ (if efl e then [32] else [])).
  { change ([47] ++ ekey e ++ (if efl e then [32] else [])) with ((47 :: ekey e) ++ (if efl e then [32] else [])).
    destruct (efl e).
    - assert (G : forall l, Forall (fun c => is_ws4 c = false) l -> collapse (l ++ [32]) = l ++ [32]).
      { induction 1; cbn [app]; [reflexivity|]. rewrite collapse_hd by auto. congruence. }
      apply G, key_nows. auto.
    - rewrite app_nil_r. apply collapse_nows, key_nows. auto. }
  rewrite C, <- !app_assoc. reflexivity.
Qed.

(** The separators that survive are the ones the reader needs. *)
Definition gt_ok (v : bytes) : Prop := match v with 62 :: 62 :: _ => False | _ => True end.

Lemma prefixb1 : forall p v b, v <> [] -> prefixb [p] (v ++ b) = match v with c :: _ => p =? c | [] => false end.
Proof. intros p [|c v] b H; [congruence|]. cbn. now rewrite andb_true_r. Qed.

Lemma strip_ents_map : forall pat es, map ent_prop (strip_ents pat es) =
  map (fun e => mkProp (ekey e) (strip pat (eval e))) es.
Proof. induction es; cbn; auto. rewrite IHes. auto. Qed.

Lemma strip_ents_ok : forall pat es, Forall ent_ok es -> Forall ent_ok (strip_ents pat es).
Proof.
  induction 1 as [|e es [Hk Hv] F IH]; cbn [strip_ents]; constructor; auto.
  split; cbn [ekey eval]; auto. apply shape_strip; auto.
Qed.

Lemma collapse_ents_ok : forall es, Forall ent_ok es -> Forall ent_ok (collapse_ents es).
Proof.
  induction 1 as [|e es [Hk Hv] F IH]; cbn [collapse_ents map]; constructor; auto.
  split; cbn [ekey eval]; auto. apply shape_collapse; auto.
Qed.

Lemma sep_strip : forall pat es, Forall ent_ok es -> Forall sep_ok es ->
  (pat = [47] \/ pat = [91] \/ pat = [93] \/ pat = [60; 60] \/
   (pat = [62; 62] /\ Forall (fun e => gt_ok (eval e)) es)) ->
  Forall sep_ok (strip_ents pat es).
Proof.
  induction es as [|e es IH]; intros Fo Fs HP; cbn [strip_ents]; [constructor|].
  inversion Fo as [|? ? [Hk Hv] Fo']; inversion Fs as [|? ? Hse Fs']; subst.
  constructor.
  2:{ apply IH; auto. destruct HP as [|[|[|[|[? G]]]]]; auto 10. inversion G; auto 10. }
  unfold sep_ok. cbn [efl eval]. intros Hf.
  destruct Hv as [E|(c & w & E & Hc & H47 & H93 & HL)].
  { left. rewrite E. reflexivity. }
  right. rewrite E. exists c, (strip pat w). rewrite strip_hd by auto. split; auto.
  destruct (efl e) eqn:Fl.
  - cbn [andb] in Hf. apply negb_false_iff in Hf. rewrite E in Hf. cbn [app] in Hf.
    destruct HP as [->|[->|[->|[->|[-> G]]]]]; cbn [prefixb] in Hf; try (rewrite ?andb_true_r in Hf; lia).
    inversion G as [|? ? G1 _]; subst. rewrite E in G1.
    apply andb_true_iff in Hf. destruct Hf as [A1 A2].
    assert (c = 62) by lia. subst c. destruct w as [|d w].
    + cbn [app] in A2. destruct es; cbn in A2; discriminate.
    + cbn [app] in A2. assert (d = 62) by lia. subst d. destruct G1.
  - destruct (Hse Fl) as [E2|(c' & v' & E2 & Hc')]; rewrite E in E2; [discriminate|]. inversion E2; subst. auto.
Qed.

Lemma sep_collapse : forall es, Forall ent_ok es -> Forall sep_ok es -> Forall sep_ok (collapse_ents es).
Proof.
  induction es as [|e es IH]; intros Fo Fs; cbn [collapse_ents map]; [constructor|].
  inversion Fo as [|? ? [Hk Hv] Fo']; inversion Fs as [|? ? Hse Fs']; subst. constructor; [|apply IH; auto].
  unfold sep_ok in *. cbn [efl eval]. intros Hf. destruct (Hse Hf) as [E|(c & v & E & Hc)]; rewrite E.
  - left; reflexivity.
  - right. exists c, (collapse v). rewrite collapse_hd; [auto|]. destruct Hc; subst; reflexivity.
Qed.

(** The value after the first four stripping steps. *)
Definition norm4 (s : bytes) : bytes :=
  strip (B"<<") (strip (B"]") (strip (B"[") (strip (B"/") (collapse s)))).

Lemma ent_norm : forall e, mkProp (ekey e) (norm (eval e)) =
  mkProp (ekey e) (strip (B">>") (norm4 (eval e))).
Proof. reflexivity. Qed.

Lemma norm_rend : forall es, Forall ent_ok es -> Forall sep_ok es ->
  Forall (fun e => gt_ok (norm4 (eval e))) es ->
  exists es', norm (rend es) = rend es' /\ Forall ent_ok es' /\ Forall sep_ok es' /\
    map ent_prop es' = map (fun e => mkProp (ekey e) (norm (eval e))) es.
Proof.
  intros es Fo Fs G. unfold norm.
  assert (P1 : forall p, pat_ok [p]) by (intros p b _; apply no_straddle_1).
  assert (P2 : pat_ok [60; 60]) by (intros b Hb; apply no_straddle_2; auto; lia).
  assert (P3 : pat_ok [62; 62]) by (intros b Hb; apply no_straddle_2; auto; lia).
  change (B"/") with [47]. change (B"[") with [91]. change (B"]") with [93].
  change (B"<<") with [60; 60]. change (B">>") with [62; 62].
  set (e0 := collapse_ents es).
  assert (O0 : Forall ent_ok e0) by (apply collapse_ents_ok; auto).
  assert (S0 : Forall sep_ok e0) by (apply sep_collapse; auto).
  set (e1 := strip_ents [47] e0).
  assert (O1 : Forall ent_ok e1) by (apply strip_ents_ok; auto).
  assert (S1 : Forall sep_ok e1) by (apply sep_strip; auto).
  set (e2 := strip_ents [91] e1).
  assert (O2 : Forall ent_ok e2) by (apply strip_ents_ok; auto).
  assert (S2 : Forall sep_ok e2) by (apply sep_strip; auto).
  set (e3 := strip_ents [93] e2).
  assert (O3 : Forall ent_ok e3) by (apply strip_ents_ok; auto).
  assert (S3 : Forall sep_ok e3) by (apply sep_strip; auto).
  set (e4 := strip_ents [60; 60] e3).
  assert (O4 : Forall ent_ok e4) by (apply strip_ents_ok; auto).
  assert (S4 : Forall sep_ok e4) by (apply sep_strip; auto 10).
  assert (M : map eval e4 = map (fun e => norm4 (eval e)) es).
  { assert (Q : forall pat l, map eval (strip_ents pat l) = map (strip pat) (map eval l)).
    { induction l; cbn; auto. rewrite IHl. auto. }
    unfold e4, e3, e2, e1, e0. rewrite !Q. unfold collapse_ents. rewrite !map_map. reflexivity. }
  assert (K : map ekey e4 = map ekey es).
  { assert (Q : forall pat l, map ekey (strip_ents pat l) = map ekey l).
    { induction l; cbn; auto. rewrite IHl. auto. }
    unfold e4, e3, e2, e1, e0. rewrite !Q. unfold collapse_ents. rewrite !map_map. reflexivity. }
  assert (G4 : Forall (fun e => gt_ok (eval e)) e4).
  { clearbody e4. clear -M G. apply (Forall_map (fun e => norm4 (eval e)) gt_ok) in G. rewrite <- M in G.
    apply (Forall_map eval gt_ok) in G. auto. }
  exists (strip_ents [62; 62] e4). split; [|split; [|split]].
  - rewrite collapse_rend by auto. fold e0.
    rewrite strip_rend by (auto; discriminate). fold e1.
    rewrite strip_rend by (auto; discriminate). fold e2.
    rewrite strip_rend by (auto; discriminate). fold e3.
    rewrite strip_rend by (auto; discriminate). fold e4.
    rewrite strip_rend by (auto; discriminate). reflexivity.
  - apply strip_ents_ok; auto.
  - apply sep_strip; auto 10.
  - rewrite strip_ents_map. clearbody e4. clear -M K.
    revert es M K. induction e4 as [|e l IH]; intros [|e' es] M K; cbn in *; try discriminate; auto.
    inversion M; inversion K; subst. f_equal; auto. unfold norm4 in H0. rewrite H0. reflexivity.
Qed.
