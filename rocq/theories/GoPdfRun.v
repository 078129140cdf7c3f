(** What the calls leave in the objects: pages with their contents. *)
From Coq Require Import String List ZArith Lia Bool.
From Coq.Floats Require Import SpecFloat.
From Verif Require Import Base BaseProofs Output Png Crypto Float64 Ttf Subset Text ApiIds GoPdf GoPdfSpec GoPdfFile GoPdfPages.
Open Scope Z_scope.
Open Scope list_scope.

(** ** The effect of a call on the contents of the page *)

Definition text_of (u : gcur) (n : nat) (cell : bool) (rect : option (f64 * f64)) (align border float : Z) : gtext :=
  mkGT rect (u_color u) (u_gray u) (u_count u + 1) (u_size u) (u_style u) (u_setx u) (u_x u) (u_y u) n
    (snd (u_page u)) cell align border float (u_line u) [] [] (fofz 0) (fofz 0) (fofz 0).
Definition text_effect (g : gp) (cell : bool) (rect : option (f64 * f64)) (align border float : Z) (text : bytes) (cs : list gcache) : option (list gcache) :=
  match add_text_chars g text with
  | Ok (g1, n, None) => Some (fst (fst (fst (append_text (g_fonts g1) cs (text_of (g_cur g1) n cell rect align border float) text))))
  | _ => None
  end.
(** number and size of the image *)
Definition img_of (w : gworld) (g : gp) (id data : bytes) (rect : option (f64 * f64)) : Z * (f64 * f64) :=
  match find (fun c => beqb id (fst (fst c))) (u_cache (g_cur g)) with
  | Some (_, k, _) => (k, match rect with Some r => r | None => match at_ (u_cache (g_cur g)) k with Ok c => snd c | _ => (fofz 0, fofz 0) end end)
  | None => (u_imgs (g_cur g), match rect with Some r => r | None => match img_rect w data with Ok r => r | _ => (fofz 0, fofz 0) end end)
  end.
Definition effect (w : gworld) (x : gp * gcall * option err) (cs : list gcache) : option (list gcache) :=
  let '(g, c, e) := x in
  let h := snd (u_page (g_cur g)) in
  match c with
  | Text t => text_effect g false None 0 0 0 t cs
  | Cell r t => text_effect g true r (aLeft + aTop) 0 aRight t cs
  | CellOpt r t a b f => text_effect g true r a b f t cs
  | ImageBy id d _ x y r => match e with Some _ => None | None => Some (cs ++ [CImage (fst (img_of w g id d r)) x y h (snd (img_of w g id d r))]) end
  | LineWidth v => Some (cs ++ [CWidth v])
  | LineType t => Some (cs ++ [CType t])
  | Line x1 y1 x2 y2 => Some (cs ++ [CLine h x1 y1 x2 y2])
  | RectLower x y a b s => Some (cs ++ [CRect h x y a b s])
  | RectUpper x y a b s => Some (cs ++ [CRect h x (fadd y b) a b s])
  | Oval x1 y1 x2 y2 => Some (cs ++ [COval h x1 y1 x2 y2])
  | Curve x0 y0 x1 y1 x2 y2 x3 y3 s => Some (cs ++ [CCurve h x0 y0 x1 y1 x2 y2 x3 y3 (map upper (trim_space s))])
  | GrayFill v => Some (cs ++ [CGray false (fix_range v)])
  | GrayStroke v => Some (cs ++ [CGray true (fix_range v)])
  | StrokeColor c => Some (cs ++ [CColor true c])
  | FillColor c => Some (cs ++ [CColor false c])
  | _ => None
  end.
Definition held (oc : option (list gcache)) : list gcache := match oc with Some cs => cs | None => [] end.
Definition cstep (w : gworld) (oc : option (list gcache)) (x : gp * gcall * option err) : option (list gcache) :=
  match effect w x (held oc) with None => oc | Some cs => Some cs end.
Definition norm (opt : f64 * f64) : f64 * f64 := if opt_empty opt then (fofz 0, fofz 0) else opt.
Definition made (w : gworld) (p : f64 * f64 * trace) : f64 * f64 * option (list gcache) := (norm (fst p), fold_left (cstep w) (snd p) None).

(** ** Invariant *)

Definition inner (o : gobj) : bool := match o_kind o with KCatalog | KPages _ _ | KProcSet _ _ | KEncrypt _ => false | _ => true end.
Definition fresh (o : gobj) : Prop :=
  o_buf o = [] /\ match o_kind o with KPage c r _ => c = [] /\ r = B"3 0 R" | KContent s _ => s = [] | _ => True end.
Definition here (q : Z * (f64 * f64) * list (Z * list gcache)) (p : f64 * f64 * option (list gcache)) : Prop :=
  snd (fst q) = fst p /\ match snd p with None => snd q = [] | Some cs => exists i, snd q = [(i, cs)] end.
Definition nonsig (l : list gobj) : Prop := forallb (fun o => negb (sig o)) l = true.

Record inv (cfg : gconfig) (g : gp) (pl : list (f64 * f64 * option (list gcache))) : Prop := mkInv {
  iv_objs : exists fs xs rest, g_objs g = [new_obj KCatalog; new_obj (KPages 0 []); new_obj (KProcSet fs xs)] ++ rest /\ forallb inner rest = true;
  iv_fresh : Forall fresh (g_objs g);
  iv_cfg : g_cfg g = cfg /\ g_pages g = 1 /\ g_procset g = 2 /\ u_l (g_cur g) = 0;
  iv_scan : Forall2 here (scan (g_objs g)) pl;
  iv_content : (g_content g = -1 /\ (pl = [] \/ exists a o, pl = a ++ [(o, None)])) \/
    (exists a o b s cs, g_objs g = a ++ o :: b /\ Z.of_nat (List.length a) = g_content g /\ o_kind o = KContent s cs /\ nonsig b /\
       (pl = [] \/ exists x y, pl = x ++ [(y, Some cs)])) }.

Lemma inv_same : forall cfg g g' pl, inv cfg g pl -> g_objs g' = g_objs g -> g_cfg g' = g_cfg g -> g_pages g' = g_pages g -> g_procset g' = g_procset g ->
  g_content g' = g_content g -> u_l (g_cur g') = u_l (g_cur g) -> inv cfg g' pl.
Proof. intros cfg g g' pl [O Fr C S T] E1 E2 E3 E4 E5 E6. constructor; rewrite ?E1, ?E2, ?E3, ?E4, ?E5, ?E6; assumption. Qed.

Lemma nonsig_app : forall a b, nonsig a -> nonsig b -> nonsig (a ++ b).
Proof. intros a b Ha Hb. unfold nonsig. rewrite forallb_app, Ha, Hb. reflexivity. Qed.

(** an object that is neither page nor content is added *)
Lemma inv_add : forall cfg g pl k, inv cfg g pl -> sig (new_obj k) = false -> inner (new_obj k) = true -> inv cfg (fst (addObj g k)) pl.
Proof.
  intros cfg g pl k [(fs & xs & rest & O & R) Fr C S T] Hs Hi. cbn [addObj fst].
  assert (N : nonsig [new_obj k]) by (unfold nonsig; cbn [forallb]; rewrite Hs; reflexivity).
  assert (Ff : fresh (new_obj k)). { split; [reflexivity|]. unfold sig in Hs. cbn [new_obj o_kind] in *. destruct k; try exact Logic.I; discriminate. }
  constructor; cbn [g_objs g_set_objs g_cfg g_pages g_procset g_content g_cur].
  - exists fs, xs, (rest ++ [new_obj k]). rewrite O, <- app_assoc. split; [reflexivity|]. rewrite forallb_app, R. cbn [forallb]. rewrite Hi. reflexivity.
  - apply Forall_app. split; [exact Fr|]. constructor; [exact Ff|constructor].
  - exact C.
  - rewrite scan_app by exact N. exact S.
  - destruct T as [T|(a & o & b & s & cs & E & L & K & Nb & P)]; [left; exact T|right].
    exists a, o, (b ++ [new_obj k]), s, cs. rewrite E, <- app_assoc. split; [reflexivity|]. split; [exact L|]. split; [exact K|]. split; [apply nonsig_app; assumption|exact P].
Qed.

(** an image or the procset is changed *)
Lemma forall2_len : forall A C (P : A -> C -> Prop) l l', Forall2 P l l' -> List.length l = List.length l'.
Proof. induction 1; cbn [List.length]; congruence. Qed.
Definition qs (o o' : gobj) : Prop :=
  o' = o \/ (o_buf o' = o_buf o /\ (exists i r p i' r' p', o_kind o = KImage i r p /\ o_kind o' = KImage i' r' p')).
Lemma set_qs : forall os i o k, nth_error os i = Some o -> qs o (mkGO (o_buf o) k) -> Forall2 qs os (set_nth i (fun o => mkGO (o_buf o) k) os).
Proof.
  induction os as [|x os IH]; intros i o k E Q; [destruct i; discriminate|]. destruct i as [|i]; cbn [nth_error set_nth] in *.
  - injection E as ->. constructor; [exact Q|]. clear. induction os; constructor; [left; reflexivity|assumption].
  - constructor; [left; reflexivity|]. eapply IH; eauto.
Qed.
Lemma qs_scan : forall os os', Forall2 qs os os' -> forall st, fold_left scan_step os st = fold_left scan_step os' st.
Proof.
  induction 1 as [|o o' os os' Q _ IH]; intros st; [reflexivity|]. cbn [fold_left]. rewrite <- IH. f_equal.
  destruct Q as [->|(_ & i & r & p & i' & r' & p' & E & E')]; [reflexivity|]. destruct st as (ps, k). unfold scan_step. rewrite E, E'. reflexivity.
Qed.
Lemma qs_sig : forall os os', Forall2 qs os os' -> nonsig os -> nonsig os'.
Proof.
  unfold nonsig. induction 1 as [|o o' os os' Q _ IH]; intros N; [reflexivity|]. cbn [forallb] in *. apply andb_true_iff in N. destruct N as (N1 & N2).
  rewrite IH by exact N2. destruct Q as [->|(_ & i & r & p & i' & r' & p' & E & E')]; [rewrite N1; reflexivity|]. unfold sig. rewrite E'. reflexivity.
Qed.
Lemma qs_inner : forall os os', Forall2 qs os os' -> forallb inner os = true -> forallb inner os' = true.
Proof.
  induction 1 as [|o o' os os' Q _ IH]; intros N; [reflexivity|]. cbn [forallb] in *. apply andb_true_iff in N. destruct N as (N1 & N2).
  rewrite IH by exact N2. destruct Q as [->|(_ & i & r & p & i' & r' & p' & E & E')]; [rewrite N1; reflexivity|]. unfold inner. rewrite E'. reflexivity.
Qed.
Lemma qs_fresh : forall os os', Forall2 qs os os' -> Forall fresh os -> Forall fresh os'.
Proof.
  induction 1 as [|o o' os os' Q _ IH]; intros N; [constructor|]. inversion N as [|? ? (F1 & F2) F3]; subst. constructor; [|apply IH; exact F3].
  destruct Q as [->|(E0 & i & r & p & i' & r' & p' & E & E')]; [split; assumption|]. split; [congruence|]. rewrite E'. exact Logic.I.
Qed.

Lemma inv_image : forall cfg g pl i k, inv cfg g pl -> (exists a b c, kind_at g i = Ok (KImage a b c)) -> (exists a b c, k = KImage a b c) -> inv cfg (put_kind g i k) pl.
Proof.
  intros cfg g pl i k [(fs & xs & rest & O & R) Fr C S T] (ia & ib & ic & Ek) (a' & b' & c' & ->).
  apply kind_at_nth in Ek. destruct Ek as (o & En & Eo & Pi).
  assert (Q : Forall2 qs (g_objs g) (set_nth (Z.to_nat i) (fun o => mkGO (o_buf o) (KImage a' b' c')) (g_objs g))).
  { eapply set_qs; [exact En|]. right. split; [reflexivity|]. eexists _, _, _, _, _, _. split; [exact Eo|reflexivity]. }
  unfold put_kind. set (os' := set_nth _ _ _) in *. clearbody os'. constructor; cbn [g_objs g_set_objs g_cfg g_pages g_procset g_content g_cur].
  - exists fs, xs. rewrite O in Q. inversion Q as [|? o1 ? l1 Q1 Q']; subst. inversion Q' as [|? o2 ? l2 Q2 Q'']; subst. inversion Q'' as [|? o3 ? l3 Q3 Q4]; subst.
    exists l3. split; [|eapply qs_inner; eauto]. cbn [app].
    destruct Q1 as [->|(_ & ? & ? & ? & ? & ? & ? & X & _)]; [|discriminate]. destruct Q2 as [->|(_ & ? & ? & ? & ? & ? & ? & X & _)]; [|discriminate].
    destruct Q3 as [->|(_ & ? & ? & ? & ? & ? & ? & X & _)]; [|discriminate]. reflexivity.
  - eapply qs_fresh; eauto.
  - exact C.
  - unfold scan. rewrite <- (qs_scan _ _ Q). exact S.
  - destruct T as [T|(a & o1 & b & s & cs & E & L & K & Nb & P)]; [left; exact T|right].
    rewrite E in Q. apply Forall2_app_inv_l in Q. destruct Q as (a1 & r1 & Qa & Qr & ->). inversion Qr as [|? o2 ? b2 Q1 Qb]; subst.
    exists a1, o2, b2, s, cs. split; [reflexivity|]. split; [rewrite <- L; f_equal; symmetry; eapply forall2_len; exact Qa|].
    split; [destruct Q1 as [->|(_ & ? & ? & ? & ? & ? & ? & X & _)]; [exact K|congruence]|]. split; [eapply qs_sig; eauto|exact P].
Qed.

Lemma inv_procset : forall cfg g pl fs xs, inv cfg g pl -> inv cfg (put_kind g 2 (KProcSet fs xs)) pl.
Proof.
  intros cfg g pl fs xs [(fs0 & xs0 & rest & O & R) Fr C S T].
  unfold put_kind. constructor; cbn [g_objs g_set_objs g_cfg g_pages g_procset g_content g_cur]; rewrite ?O in *.
  - exists fs, xs, rest. split; [reflexivity|exact R].
  - change (set_nth (Z.to_nat 2) (fun o => mkGO (o_buf o) (KProcSet fs xs)) ([new_obj KCatalog; new_obj (KPages 0 []); new_obj (KProcSet fs0 xs0)] ++ rest))
      with ([new_obj KCatalog; new_obj (KPages 0 []); new_obj (KProcSet fs xs)] ++ rest).
    apply Forall_app in Fr. destruct Fr as (_ & Fr). apply Forall_app. split; [|exact Fr].
    repeat (constructor; [split; [reflexivity|exact Logic.I]|]). constructor.
  - exact C.
  - exact S.
  - destruct T as [T|(a & o1 & b & s & cs & E & L & K & Nb & P)]; [left; exact T|right].
    destruct a as [|a0 [|a1 [|a2 a]]]; cbn [app] in E; injection E as E; subst; try discriminate K.
    + exists (new_obj KCatalog :: new_obj (KPages 0 []) :: new_obj (KProcSet fs xs) :: a), o1, b, s, cs.
      split; [reflexivity|]. split; [exact L|]. split; [exact K|]. split; [exact Nb|exact P].
Qed.

(** a page is added *)
Lemma inv_page : forall cfg g pl opt, inv cfg g pl -> inv cfg (g_add_page opt g) (pl ++ [(norm opt, None)]).
Proof.
  intros cfg g pl opt [(fs & xs & rest & O & R) Fr (C1 & C2 & C3 & C4) S T]. unfold g_add_page. cbv zeta. cbn [addObj].
  set (k := KPage [] _ _).
  assert (Ek : k = KPage [] (B"3 0 R") (norm opt)). { unfold k, norm. cbn [g_procset g_set_cur]. rewrite C3. destruct (opt_empty opt); reflexivity. }
  rewrite Ek. clear k Ek. cbn [g_first g_set_objs g_set_cur]. 
  eapply inv_same with (g := g_set_content (g_set_objs g (g_objs g ++ [new_obj (KPage [] (B"3 0 R") (norm opt))])) (-1));
    try (destruct (g_first g =? -1); reflexivity).
  constructor; cbn [g_objs g_set_content g_set_objs g_cfg g_pages g_procset g_content g_cur].
  - exists fs, xs, (rest ++ [new_obj (KPage [] (B"3 0 R") (norm opt))]). rewrite O, <- app_assoc. split; [reflexivity|]. rewrite forallb_app, R. reflexivity.
  - apply Forall_app. split; [exact Fr|]. constructor; [split; [reflexivity|split; reflexivity]|constructor].
  - auto.
  - rewrite (scan_page _ _ [] (B"3 0 R") (norm opt)) by reflexivity. apply Forall2_app; [exact S|]. constructor; [|constructor]. split; reflexivity.
  - left. split; [reflexivity|]. right. exists pl, (norm opt). reflexivity.
Qed.

(** something is drawn *)
Lemma forall2_snoc : forall A C (P : A -> C -> Prop) l x l', Forall2 P (l ++ [x]) l' -> exists a c, l' = a ++ [c] /\ Forall2 P l a /\ P x c.
Proof. intros A C P l x l' H. apply Forall2_app_inv_l in H. destruct H as (a & r & H1 & H2 & ->). inversion H2 as [|? c ? r' H3 H4]; subst. inversion H4; subst. eauto. Qed.
Lemma here_put : forall sc pl i cs cs', Forall2 here (on_last (fun p => (fst p, snd p ++ [(i, cs)])) sc) pl ->
  Forall2 here (on_last (fun p => (fst p, snd p ++ [(i, cs')])) sc) (on_last (fun p => (fst p, Some cs')) pl).
Proof.
  intros sc pl i cs cs' H. destruct (last_cases _ sc) as [->|(a & x & ->)].
  - inversion H; subst. constructor.
  - rewrite on_last_snoc in *. apply forall2_snoc in H. destruct H as (b & c & -> & H1 & (H2 & H3)). rewrite on_last_snoc.
    apply Forall2_app; [exact H1|]. constructor; [|constructor]. split; [exact H2|]. cbn [snd fst] in *. exists i.
    destruct (snd c) as [c0|]; [destruct H3 as (i0 & H3)|destruct (snd x); discriminate].
    destruct (snd x) as [|y l]; [reflexivity|]. destruct l; discriminate.
Qed.
Lemma here_new : forall sc pl i cs', Forall2 here sc pl -> (pl = [] \/ exists a o, pl = a ++ [(o, None)]) ->
  Forall2 here (on_last (fun p => (fst p, snd p ++ [(i, cs')])) sc) (on_last (fun p => (fst p, Some cs')) pl).
Proof.
  intros sc pl i cs' H [->|(a & o & ->)]; [inversion H; constructor|]. apply Forall2_app_inv_r in H. destruct H as (b & r & H1 & H2 & ->).
  inversion H2 as [|q ? r' ? (E1 & E2) H3]; subst. inversion H3; subst. rewrite !on_last_snoc. apply Forall2_app; [exact H1|]. constructor; [|constructor].
  split; [exact E1|]. cbn [snd fst] in *. rewrite E2. exists i. reflexivity.
Qed.

Lemma inv_draw : forall cfg g pl g1 i s cs, inv cfg g pl -> getContent g = Ok (g1, i, s, cs) ->
  g_cur g1 = g_cur g /\ g_fonts g1 = g_fonts g /\ (pl = [] \/ exists x y oc, pl = x ++ [(y, oc)] /\ held oc = cs) /\
  (forall cs', inv cfg (put_kind g1 i (KContent s cs')) (on_last (fun p => (fst p, Some cs')) pl)).
Proof.
  intros cfg g pl g1 i s cs [(fs & xs & rest & O & R) Fr C S T] H. unfold getContent in H. destruct (g_content g <=? -1) eqn:E.
  - apply Z.leb_le in E. cbn [addObj] in H. injection H as <- <- <- <-.
    destruct T as [(T1 & T2)|(a & o & b & s & cs & _ & L & _)]; [|lia].
    split; [reflexivity|]. split; [reflexivity|].
    split. { destruct T2 as [->|(a & o & ->)]; [left; reflexivity|right]. exists a, o, None. split; reflexivity. }
    intros cs'. unfold put_kind. rewrite Nat2Z.id.
    cbn [g_objs g_set_content g_set_objs]. set (os' := set_nth _ _ _).
    assert (Eos : os' = g_objs g ++ [new_obj (KContent [] cs')]).
    { unfold os'. clear. generalize (g_objs g). induction l as [|x l IH]; [reflexivity|]. cbn [app List.length set_nth]. f_equal. exact IH. }
    clearbody os'. subst os'. constructor; cbn [g_objs g_set_content g_set_objs g_cfg g_pages g_procset g_content g_cur].
    + exists fs, xs, (rest ++ [new_obj (KContent [] cs')]). rewrite O, <- app_assoc. split; [reflexivity|]. rewrite forallb_app, R. reflexivity.
    + apply Forall_app. split; [exact Fr|]. constructor; [split; reflexivity|constructor].
    + exact C.
    + rewrite (scan_content _ _ [] cs') by reflexivity. apply here_new; assumption.
    + right. exists (g_objs g), (new_obj (KContent [] cs')), [], [], cs'. split; [reflexivity|]. split; [reflexivity|]. split; [reflexivity|]. split; [reflexivity|].
      destruct T2 as [->|(a & o & ->)]; [left; reflexivity|right]. rewrite on_last_snoc. exists a, o. reflexivity.
  - apply Z.leb_gt in E. destruct (kind_at g (g_content g)) as [k| | |] eqn:Ek; cbn [bind] in H; try discriminate. destruct k; try discriminate. injection H as <- <- <- <-.
    destruct T as [(T1 & _)|(a & o & b & s & cs & Eos & L & K & Nb & P)]; [lia|].
    apply kind_at_nth in Ek. destruct Ek as (o' & En & Eo & Pi). rewrite <- L, Nat2Z.id, Eos, nth_error_app2, Nat.sub_diag in En by lia. cbn [nth_error] in En. injection En as <-.
    rewrite K in Eo. injection Eo as <- <-.
    split; [reflexivity|]. split; [reflexivity|].
    split. { destruct P as [->|(x & y & ->)]; [left; reflexivity|right]. exists x, y, (Some cs). split; reflexivity. }
    intros cs'. unfold put_kind. rewrite <- L, Nat2Z.id, Eos.
    rewrite PagesProofs.set_nth_split.
    assert (So : fresh o). { rewrite Eos in Fr. apply Forall_app in Fr. destruct Fr as (_ & Fr). inversion Fr; assumption. }
    destruct So as (So1 & So2). rewrite K in So2. subst s.
    constructor; cbn [g_objs g_set_content g_set_objs g_cfg g_pages g_procset g_content g_cur].
    + exists fs, xs. rewrite O in Eos. destruct a as [|a0 [|a1 [|a2 a]]]; cbn [app] in Eos; injection Eos as E1; subst; try discriminate K.
      exists (a ++ mkGO (o_buf o) (KContent [] cs') :: b). split; [reflexivity|]. rewrite forallb_app in *. cbn [forallb] in *. apply andb_true_iff in R.
      destruct R as (R1 & R2). apply andb_true_iff in R2. destruct R2 as (_ & R2). rewrite R1, R2. reflexivity.
    + rewrite Eos in Fr. apply Forall_app in Fr. destruct Fr as (F1 & F2). inversion F2; subst. apply Forall_app. split; [assumption|]. constructor; [|assumption].
      split; [exact So1|reflexivity].
    + exact C.
    + assert (X : forall y, nonsig b -> scan (a ++ y :: b) = scan (a ++ [y])).
      { intros y N. change (y :: b) with ([y] ++ b). rewrite app_assoc. apply scan_app. exact N. }
      rewrite Eos, X in S by exact Nb. rewrite X by exact Nb. rewrite (scan_content _ _ [] cs) in S by exact K.
      rewrite (scan_content _ _ [] cs') by reflexivity. eapply here_put. exact S.
    + right. exists a, (mkGO (o_buf o) (KContent [] cs')), b, [], cs'. split; [reflexivity|]. split; [exact L|]. split; [reflexivity|]. split; [exact Nb|].
      destruct P as [->|(x & y & ->)]; [left; reflexivity|right]. rewrite on_last_snoc. exists x, y. reflexivity.
Qed.

(** ** The calls *)

Lemma on_last_ext : forall A (f h : A -> A) l, (l = [] \/ exists a x, l = a ++ [x] /\ f x = h x) -> on_last f l = on_last h l.
Proof. intros A f h l [->|(a & x & -> & E)]; [reflexivity|]. rewrite !on_last_snoc, E. reflexivity. Qed.
Lemma on_last_id : forall A (f : A -> A) l, (forall x, f x = x) -> on_last f l = l.
Proof. intros A f l H. destruct (last_cases _ l) as [->|(a & x & ->)]; [reflexivity|]. rewrite on_last_snoc, H. reflexivity. Qed.

Lemma draw_inv : forall cfg g pl f g', inv cfg g pl -> draw g f = Ok g' ->
  inv cfg g' (on_last (fun p => (fst p, Some (held (snd p) ++ [f (snd (u_page (g_cur g)))]))) pl) /\ g_cur g' = g_cur g /\ g_prot g' = g_prot g /\
  g_fonts g' = g_fonts g.
Proof.
  intros cfg g pl f g' V H. unfold draw in H. destruct (getContent g) as [[[[g1 i] s] cs]| | |] eqn:E; cbn [bind] in H; try discriminate. injection H as <-.
  destruct (inv_draw _ _ _ _ _ _ _ V E) as (Ec & Ef & P & V').
  split.
  - specialize (V' (cs ++ [f (snd (u_page (g_cur g)))])). erewrite on_last_ext; [exact V'|].
    destruct P as [->|(x & y & oc & -> & Hc)]; [left; reflexivity|right]. eexists _, _. split; [reflexivity|]. cbn [fst snd]. rewrite Hc. reflexivity.
  - split; [exact Ec|]. split; [|exact Ef]. unfold getContent in E. destruct (g_content g <=? -1); [cbn [addObj] in E; injection E as <- _ _ _; reflexivity|].
    destruct (kind_at g (g_content g)) as [k| | |]; cbn [bind] in E; try discriminate. destruct k; try discriminate. injection E as <- _ _ _. reflexivity.
Qed.

Lemma chars_frame : forall g t g1 n e, add_text_chars g t = Ok (g1, n, e) ->
  g_objs g1 = g_objs g /\ g_cfg g1 = g_cfg g /\ g_pages g1 = g_pages g /\ g_procset g1 = g_procset g /\ g_content g1 = g_content g /\ g_cur g1 = g_cur g.
Proof.
  intros g t g1 n e H. unfold add_text_chars in H. destruct (u_font (g_cur g)) as [m|]; [|discriminate].
  destruct (nth_error (g_fonts g) m) as [f|]; [|discriminate]. destruct (add_chars (gf_ttf f) t (gf_map f)) as (mm, r).
  destruct r; try discriminate; injection H as <- _ _; auto 10.
Qed.

Lemma text_inv : forall cfg g pl cell rect al bo fl t g' e, inv cfg g pl -> text_call cell rect al bo fl t g = Ok (g', e) ->
  inv cfg g' (on_last (fun p => (fst p, match text_effect g cell rect al bo fl t (held (snd p)) with None => snd p | Some cs => Some cs end)) pl).
Proof.
  intros cfg g pl cell rect al bo fl t g' e V H. unfold text_call in H. unfold text_effect.
  destruct (add_text_chars g t) as [[[g1 n] [e1|]]| | |] eqn:E; cbn [bind] in H; try discriminate.
  - injection H as <- _. rewrite on_last_id by (intros []; reflexivity). apply chars_frame in E. destruct E as (E1 & E2 & E3 & E4 & E5 & E6).
    eapply inv_same; eauto. congruence.
  - apply chars_frame in E. destruct E as (E1 & E2 & E3 & E4 & E5 & E6).
    assert (V1 : inv cfg g1 pl) by (eapply inv_same; eauto; congruence).
    unfold put_text in H. destruct (getContent g1) as [[[[g2 i] s] cs]| | |] eqn:EC; cbn [bind] in H; try discriminate.
    destruct (inv_draw _ _ _ _ _ _ _ V1 EC) as (Ec & Ef & P & V').
    fold (text_of (g_cur g1) n cell rect al bo fl) in H.
    destruct (append_text (g_fonts g1) cs (text_of (g_cur g1) n cell rect al bo fl) t) as [[[cs' x] y] r] eqn:EA.
    assert (X : inv cfg (put_kind g2 i (KContent s cs'))
       (on_last (fun p => (fst p, Some (fst (fst (fst (append_text (g_fonts g1) (held (snd p)) (text_of (g_cur g1) n cell rect al bo fl) t)))))) pl)).
    { erewrite on_last_ext; [apply (V' cs')|]. destruct P as [->|(x0 & y0 & oc & -> & Hc)]; [left; reflexivity|right].
      eexists _, _. split; [reflexivity|]. cbn [fst snd]. rewrite Hc, EA. reflexivity. }
    destruct r; try discriminate; injection H as <- _; (eapply inv_same; [exact X|reflexivity|reflexivity|reflexivity|reflexivity|reflexivity|]);
      cbn [g_cur g_set_cur put_kind g_set_objs u_set_xy u_l]; rewrite Ec; reflexivity.
Qed.

Ltac same V := eapply inv_same; [exact V|reflexivity|reflexivity|reflexivity|reflexivity|reflexivity|reflexivity].

Lemma add_inv : forall cfg g pl k g1 i, inv cfg g pl -> addObj g k = (g1, i) -> sig (new_obj k) = false -> inner (new_obj k) = true ->
  inv cfg g1 pl /\ kind_at g1 i = Ok k.
Proof.
  intros cfg g pl k g1 i V E S N. pose proof (inv_add _ _ _ k V S N) as X. rewrite E in X. split; [exact X|]. cbn [addObj] in E. injection E as <- <-.
  unfold kind_at, at_. destruct (Z.of_nat (List.length (g_objs g)) <? 0) eqn:Ez; [apply Z.ltb_lt in Ez; lia|]. rewrite Nat2Z.id. cbn [g_objs g_set_objs].
  rewrite nth_error_app2, Nat.sub_diag by lia. reflexivity.
Qed.

Lemma font_inv : forall cfg g pl family kerning style file beyond g' e, inv cfg g pl -> g_add_font family kerning style file beyond g = Ok (g', e) -> inv cfg g' pl.
Proof.
  intros cfg g pl family kerning style file beyond g' e V H. unfold g_add_font in H.
  destruct (match file with Some d => _ | None => _ end) as [[t k]| | |] eqn:E; try discriminate; [|injection H as <- _; exact V].
  clear E. destruct (addObj g (KUnicode _ _)) as (g1, uni) eqn:E1. destruct (add_inv _ _ _ _ _ _ V E1 eq_refl eq_refl) as (V1 & _).
  destruct (addObj g1 (KDict _ _)) as (g2, dict) eqn:E2. destruct (add_inv _ _ _ _ _ _ V1 E2 eq_refl eq_refl) as (V2 & _).
  destruct (addObj g2 (KDesc _ _)) as (g3, desc) eqn:E3. destruct (add_inv _ _ _ _ _ _ V2 E3 eq_refl eq_refl) as (V3 & _).
  destruct (addObj g3 (KCid _ _)) as (g4, cid) eqn:E4. destruct (add_inv _ _ _ _ _ _ V3 E4 eq_refl eq_refl) as (V4 & _).
  destruct (addObj g4 (KFont _)) as (g5, i) eqn:E5. destruct (add_inv _ _ _ _ _ _ V4 E5 eq_refl eq_refl) as (V5 & _).
  clear E1 E2 E3 E4 E5 V V1 V2 V3 V4. cbv zeta in H.
  destruct (g_procset g5 =? -1); [injection H as <- _; same V5|].
  destruct (kind_at g5 (g_procset g5)) as [ps| | |]; cbn [bind] in H; try discriminate. destruct ps; try discriminate.
  destruct (existsb _ fonts); injection H as <- _; [same V5|].
  destruct (iv_cfg _ _ _ V5) as (_ & _ & P & _). rewrite P.
  eapply inv_same; [exact (inv_procset _ _ _ (fonts ++ [mkRel family (u_fonts (g_cur g5)) i (no_underline style)]) xobjs V5)|reflexivity|reflexivity|reflexivity|reflexivity|reflexivity|reflexivity].
Qed.

Lemma kind_put : forall g i k k0, kind_at g i = Ok k0 -> kind_at (put_kind g i k) i = Ok k.
Proof.
  intros g i k k0 H. apply kind_at_nth in H. destruct H as (o & N & _ & P). unfold kind_at, at_. destruct (i <? 0) eqn:E; [apply Z.ltb_lt in E; lia|].
  unfold put_kind. cbn [g_objs g_set_objs]. rewrite nth_set, N. reflexivity.
Qed.
Lemma kind_add : forall g k g1 j i k0, addObj g k = (g1, j) -> kind_at g i = Ok k0 -> kind_at g1 i = Ok k0.
Proof.
  intros g k g1 j i k0 E H. cbn [addObj] in E. injection E as <- <-. apply kind_at_nth in H. destruct H as (o & N & K & P). unfold kind_at, at_.
  destruct (i <? 0) eqn:E; [apply Z.ltb_lt in E; lia|]. cbn [g_objs g_set_objs]. rewrite nth_error_app1, N by (apply nth_error_Some; congruence). cbn [bind]. congruence.
Qed.
Lemma kind_put_other : forall g i j k, i <> j -> 0 <= j -> kind_at (put_kind g j k) i = kind_at g i.
Proof.
  intros g i j k N P. unfold kind_at, at_. destruct (i <? 0) eqn:E; [reflexivity|]. apply Z.ltb_ge in E. unfold put_kind. cbn [g_objs g_set_objs].
  rewrite nth_set_other by lia. reflexivity.
Qed.

(** Drawing changes no object but contents. *)
Lemma draw_kind : forall g f g' i k, draw g f = Ok g' -> kind_at g i = Ok k -> (forall s cs, k <> KContent s cs) -> kind_at g' i = Ok k.
Proof.
  intros g f g' i k H K Hk. unfold draw in H. destruct (getContent g) as [[[[g1 j] s] cs]| | |] eqn:E; cbn [bind] in H; try discriminate. injection H as <-.
  unfold getContent in E. destruct (g_content g <=? -1).
  - destruct (addObj g (KContent [] [])) as (g2, j2) eqn:E2. injection E as <- <- _ _. pose proof (kind_add _ _ _ _ _ _ E2 K) as K2.
    cbn [addObj] in E2. injection E2 as <- <-. rewrite kind_put_other; [exact K2| |lia]. apply kind_at_nth in K. destruct K as (o & N & _ & P).
    assert (Z.to_nat i < List.length (g_objs g))%nat by (apply nth_error_Some; congruence). lia.
  - destruct (kind_at g (g_content g)) as [k1| | |] eqn:E1; cbn [bind] in E; try discriminate. destruct k1; try discriminate. injection E as <- <- _ _.
    pose proof (kind_at_nth _ _ _ E1) as (_ & _ & _ & P1).
    destruct (Z.eq_dec i (g_content g)) as [->|Ne]; [rewrite E1 in K; injection K as <-; destruct (Hk stream caches); reflexivity|].
    rewrite kind_put_other by assumption. exact K.
Qed.

Lemma image_inv : forall cfg w beyond id d x y r g g' e pl, inv cfg g pl -> g_image w beyond id d x y r g = Ok (g', e) ->
  inv cfg g' (on_last (fun p => (fst p, match e with Some _ => snd p | None => Some (held (snd p) ++ [CImage (fst (img_of w g id d r)) x y (snd (u_page (g_cur g))) (snd (img_of w g id d r))]) end)) pl).
Proof.
  intros cfg w beyond id d x y r g g' e pl V H. unfold g_image in H. unfold img_of.
  destruct (find _ (u_cache (g_cur g))) as [[[nm k] rr]|] eqn:Ef.
  - destruct (k =? -1); [discriminate|].
    destruct (match r with Some r => Ok r | None => _ end) as [r'| | |] eqn:Er; cbn [bind] in H; try discriminate.
    unfold gok in H. destruct (draw g _) as [g1| | |] eqn:Ed; cbn [bind] in H; try discriminate. injection H as <- <-. cbn [fst snd].
    pose proof (proj1 (draw_inv _ _ _ _ _ V Ed)) as V'.
    assert (match r with Some r => r | None => match at_ (u_cache (g_cur g)) k with Ok c => snd c | _ => (fofz 0, fofz 0) end end = r') as ->; [|exact V'].
    destruct r; [congruence|]. destruct (at_ _ k) as [c| | |]; cbn [bind] in Er; congruence.
  - destruct (match r with Some r => Ok r | None => _ end) as [r'| | |] eqn:Er; try discriminate.
    2:{ injection H as <- <-. rewrite on_last_id by (intros []; reflexivity). exact V. }
    assert (match r with Some r => r | None => match img_rect w d with Ok r => r | _ => (fofz 0, fofz 0) end end = r') as X.
    { destruct r; [congruence|]. rewrite Er. reflexivity. }
    cbn [fst snd]. rewrite X. clear X Er.
    destruct (parseImg _ _ _ _ _) as [info| | |]; try discriminate.
    2:{ injection H as <- <-. rewrite on_last_id by (intros []; reflexivity). exact V. }
    unfold img_put in H. destruct (addObj g (KImage info 0 (g_prot g))) as (g1, i) eqn:E1.
    destruct (add_inv _ _ _ _ _ _ V E1 eq_refl eq_refl) as (V1 & K1).
    assert (C1 : g_cur g1 = g_cur g) by (cbn [addObj] in E1; injection E1 as <- _; reflexivity).
    destruct (iv_cfg _ _ _ V1) as (_ & _ & P1 & _). rewrite P1 in H. cbn [Z.eqb] in H.
    destruct (kind_at g1 2) as [ps| | |] eqn:K2; cbn [bind] in H; try discriminate. destruct ps; try discriminate.
    destruct (draw g1 _) as [g2| | |] eqn:E2; cbn [bind] in H; try discriminate.
    destruct (draw_inv _ _ _ _ _ V1 E2) as (V2 & C2 & _).
    pose proof (draw_kind _ _ _ _ _ E2 K1 ltac:(discriminate)) as K3.
    destruct (iv_cfg _ _ _ V2) as (_ & _ & P2 & _).
    set (g3 := g_set_cur (put_kind g2 (g_procset g2) (KProcSet fonts (xobjs ++ [i]))) (u_add_img (g_cur (put_kind g2 (g_procset g2) (KProcSet fonts (xobjs ++ [i])))) id r')) in H.
    rewrite C1 in V2. set (pl' := on_last _ pl) in V2.
    assert (V3 : inv cfg g3 pl').
    { unfold g3. rewrite P2. eapply inv_same; [exact (inv_procset _ _ _ fonts (xobjs ++ [i]) V2)|reflexivity|reflexivity|reflexivity|reflexivity|reflexivity|reflexivity]. }
    assert (Ni : i <> 2). { intros ->. congruence. }
    assert (K4 : kind_at g3 i = Ok (KImage info 0 (g_prot g))).
    { unfold g3. rewrite P2. transitivity (kind_at (put_kind g2 2 (KProcSet fonts (xobjs ++ [i]))) i); [reflexivity|].
      rewrite kind_put_other by (try exact Ni; lia). exact K3. }
    clearbody g3. clear V V1 V2 E1 E2 K1 K2 K3 C1 C2 P1 P2.
    assert (Y : exists g4 info' p, match createSMask info with None => g3 | Some m => let (g, j) := addObj g3 (KSMask m (g_prot g3)) in put_kind g i (KImage (setSMaskObjID info j) 0 (g_prot g)) end = g4 /\
       inv cfg g4 pl' /\ kind_at g4 i = Ok (KImage info' 0 p)).
    { destruct (createSMask info) as [m|]; [|exists g3, info, (g_prot g); auto].
      destruct (addObj g3 (KSMask m (g_prot g3))) as (g5, j) eqn:E5. destruct (add_inv _ _ _ _ _ _ V3 E5 eq_refl eq_refl) as (V5 & _).
      pose proof (kind_add _ _ _ _ _ _ E5 K4) as K5. eexists _, _, _. split; [reflexivity|]. split; [apply inv_image; eauto|]. eapply kind_put. exact K5. }
    destruct Y as (g4 & info' & p & EY & V4 & K5). rewrite EY in H. clear EY.
    destruct (beqb (colspace info) (B"Indexed")); [|injection H as <- <-; exact V4].
    destruct (addObj g4 (KRgb (pal info))) as (g5, j) eqn:E5. destruct (add_inv _ _ _ _ _ _ V4 E5 eq_refl eq_refl) as (V5 & _).
    pose proof (kind_add _ _ _ _ _ _ E5 K5) as K6. rewrite K6 in H. cbn [bind] in H. injection H as <- <-. apply inv_image; eauto.
Qed.

Lemma gok_draw : forall cfg g pl f g' e, inv cfg g pl -> gok (draw g f) = Ok (g', e) ->
  inv cfg g' (on_last (fun p => (fst p, Some (held (snd p) ++ [f (snd (u_page (g_cur g)))]))) pl).
Proof.
  intros cfg g pl f g' e V H. unfold gok in H. destruct (draw g f) as [g1| | |] eqn:E; cbn [bind] in H; try discriminate. injection H as <- _.
  apply (draw_inv _ _ _ _ _ V E).
Qed.

Theorem inv_step : forall cfg w g pl c g' e, inv cfg g pl -> gstep w g c = Ok (g', e) ->
  inv cfg g' (match c with AddPage o => pl ++ [(norm o, None)] | _ => on_last (fun p => (fst p, cstep w (snd p) (g, c, e))) pl end).
Proof.
  intros cfg w g pl c g' e V H. unfold cstep, effect.
  destruct c; cbn [gstep] in H;
    try (rewrite on_last_id by (intros []; reflexivity));
    try (injection H as <- _; same V);
    try (eapply text_inv; [exact V|exact H]);
    try (eapply (gok_draw _ _ _ _ _ _ V H)).
  - injection H as <- _. apply inv_page. exact V.
  - unfold g_set_font in H. destruct (find_font _ _ _); [|injection H as <- _; exact V]. destruct (nth_error _ _); [|discriminate]. injection H as <- _. same V.
  - unfold g_set_font in H. destruct (find_font _ _ _); [|injection H as <- _; exact V]. destruct (nth_error _ _); [|discriminate]. injection H as <- _. same V.
  - eapply font_inv; eauto.
  - unfold g_kern_override in H. destruct (find_font _ _ _); injection H as <- _; [same V|exact V].
  - apply (image_inv _ _ _ _ _ _ _ _ _ _ _ _ V) in H. erewrite on_last_ext; [exact H|].
    destruct (last_cases _ pl) as [->|(a & x0 & ->)]; [left; reflexivity|right]. exists a, x0. split; [reflexivity|]. destruct e; reflexivity.
  - unfold g_line_width in H. apply gok_draw with (cfg := cfg) (pl := pl) in H; [exact H|same V].
  - unfold g_gray in H. apply gok_draw with (cfg := cfg) (pl := pl) in H; [exact H|same V].
  - injection H as <- _. unfold g_compress_level. destruct (l <? -2); [same V|]. destruct (9 <? l); [exact V|same V].
  - unfold g_measure in H. destruct (add_text_chars g text) as [[[g1 n] [e1|]]| | |] eqn:E; cbn [bind] in H; try discriminate. injection H as <- _.
    apply chars_frame in E. destruct E as (E1 & E2 & E3 & E4 & E5 & E6). eapply inv_same; eauto. congruence.
Qed.
