(** The kinds of the objects of a document, call by call. *)
From Coq Require Import String List ZArith Lia Bool.
From Coq.Floats Require Import SpecFloat.
From Verif Require Import Base BaseProofs Output Png Crypto Float64 Ttf Subset CharMap Text ApiIds GoPdf GoPdfSpec GoPdfFile GoPdfPages GoPdfRun GoPdfDoc GoPdfTree GoPdfState GoPdfKeep.
Open Scope Z_scope.
Open Scope list_scope.

(** The kinds, without what the contents hold. *)
Definition view (k : gkind) : gkind := match k with KContent _ _ => KContent [] [] | _ => k end.
Definition V (g : gp) : list gkind := map (fun o => view (o_kind o)) (g_objs g).

Lemma V_len : forall g, List.length (V g) = List.length (g_objs g). Proof. intros g. apply map_length. Qed.
Lemma V_add : forall g k, V (fst (addObj g k)) = V g ++ [view k].
Proof. intros g k. unfold V. cbn [addObj fst g_objs g_set_objs]. rewrite map_app. reflexivity. Qed.
Lemma map_set_nth : forall A C (h : A -> C) (f : A -> A) (f' : C -> C) l n, (forall x, h (f x) = f' (h x)) -> map h (set_nth n f l) = set_nth n f' (map h l).
Proof. intros A C h f f'. induction l as [|x l IH]; intros [|n] H; cbn [set_nth map]; [reflexivity|reflexivity|rewrite H; reflexivity|rewrite IH by exact H; reflexivity]. Qed.
Lemma V_put : forall g i k, V (put_kind g i k) = set_nth (Z.to_nat i) (fun _ => view k) (V g).
Proof. intros g i k. unfold V. cbn [put_kind g_objs g_set_objs]. apply map_set_nth. reflexivity. Qed.
Lemma set_nth_id : forall A (l : list A) n x, nth_error l n = Some x -> set_nth n (fun _ => x) l = l.
Proof. intros A. induction l as [|y l IH]; intros [|n] x H; try discriminate; cbn [nth_error set_nth] in *; [congruence|]. rewrite IH by exact H. reflexivity. Qed.
Lemma set_nth_app : forall A (f : A -> A) l r n, (n < List.length l)%nat -> set_nth n f (l ++ r) = set_nth n f l ++ r.
Proof. intros A f. induction l as [|x l IH]; intros r [|n] H; cbn [List.length] in H; try lia; cbn [app set_nth]; [reflexivity|]. rewrite IH by lia. reflexivity. Qed.
Lemma set_nth_mid : forall A (f : A -> A) l x r, set_nth (List.length l) f (l ++ x :: r) = l ++ f x :: r.
Proof. intros A f. induction l as [|y l IH]; intros x r; cbn [List.length app set_nth]; [reflexivity|]. rewrite IH. reflexivity. Qed.
Lemma set_nth_len : forall A (f : A -> A) l n, List.length (set_nth n f l) = List.length l.
Proof. intros A f. induction l as [|x l IH]; intros [|n]; cbn [set_nth List.length]; [reflexivity|reflexivity|reflexivity|]. rewrite IH. reflexivity. Qed.
Lemma V_kind : forall g i k, kind_at g i = Ok k -> 0 <= i /\ nth_error (V g) (Z.to_nat i) = Some (view k).
Proof. intros g i k H. apply kind_at_nth in H. destruct H as (o & N & E & P). split; [exact P|]. unfold V. rewrite nth_error_map, N. cbn [option_map]. rewrite E. reflexivity. Qed.
Lemma V_put_same : forall g i k k0, kind_at g i = Ok k0 -> view k = view k0 -> V (put_kind g i k) = V g.
Proof. intros g i k k0 K E. rewrite V_put. apply set_nth_id. rewrite E. apply V_kind. exact K. Qed.
Lemma V_objs : forall g g', g_objs g' = g_objs g -> V g' = V g. Proof. intros g g' E. unfold V. rewrite E. reflexivity. Qed.

(** Drawing adds a contents object at most. *)
Definition blank_content (l : list gkind) : Prop := l = [] \/ l = [KContent [] []].
Definition drew (g g' : gp) : Prop := exists l, V g' = V g ++ l /\ blank_content l.
Lemma drew_same : forall g g', V g' = V g -> drew g g'. Proof. intros g g' E. exists []. rewrite app_nil_r. split; [exact E|left; reflexivity]. Qed.
Lemma getContent_view : forall g g1 i s cs, getContent g = Ok (g1, i, s, cs) -> drew g g1.
Proof.
  intros g g1 i s cs H. unfold getContent in H. destruct (g_content g <=? -1).
  - destruct (addObj g (KContent [] [])) as (g2, j) eqn:E. injection H as <- _ _ _. exists [KContent [] []]. split; [|right; reflexivity].
    pose proof (V_add g (KContent [] [])) as X. rewrite E in X. exact X.
  - destruct (kind_at g (g_content g)) as [k| | |]; cbn [bind] in H; try discriminate. destruct k; try discriminate. injection H as <- _ _ _. apply drew_same. reflexivity.
Qed.
Lemma draw_view : forall g f g', draw g f = Ok g' -> drew g g'.
Proof.
  intros g f g' H. unfold draw in H. destruct (getContent g) as [[[[g1 i] s] cs]| | |] eqn:E; cbn [bind] in H; try discriminate. injection H as <-.
  destruct (getContent_stays _ _ _ _ _ E) as (_ & K). destruct (getContent_view _ _ _ _ _ E) as (l & X & C). exists l. split; [|exact C]. rewrite <- X. eapply V_put_same; [exact K|reflexivity].
Qed.
Lemma gok_view : forall g f g' e, gok (draw g f) = Ok (g', e) -> drew g g'.
Proof. intros g f g' e H. unfold gok in H. destruct (draw g f) as [g1| | |] eqn:E; cbn [bind] in H; try discriminate. injection H as <- <-. eapply draw_view; eauto. Qed.
Lemma text_view : forall cell rect al bo fl t g g' e, text_call cell rect al bo fl t g = Ok (g', e) -> drew g g'.
Proof.
  intros cell rect al bo fl t g g' e H. unfold text_call in H. destruct (add_text_chars g t) as [[[g1 n] e1]| | |] eqn:E; cbn [bind] in H; try discriminate.
  apply chars_objs in E. apply V_objs in E. unfold drew. rewrite <- E. clear E. destruct e1 as [e1|]; [injection H as <- _; apply drew_same; reflexivity|].
  unfold put_text in H. destruct (getContent g1) as [[[[g2 i] s] cs]| | |] eqn:E; cbn [bind] in H; try discriminate. destruct (getContent_stays _ _ _ _ _ E) as (_ & K).
  destruct (getContent_view _ _ _ _ _ E) as (l & X & C). exists l. split; [|exact C]. rewrite <- X. destruct (append_text _ _ _ _) as [[[cs' x] y] r].
  assert (Y : V (put_kind g2 i (KContent s cs')) = V g2) by (eapply V_put_same; [exact K|reflexivity]).
  destruct r; try discriminate; injection H as <- _; exact Y.
Qed.

(** ** Fonts *)
Definition font_added (g : gp) (family : bytes) (kerning : bool) (style : Z) (file : option bytes) (beyond : bytes) (g' : gp) : Prop :=
  exists d t kp rs xs, file = Some d /\ parseTtf d = Ok t /\ (if kerning then parseKern d (tables t) = Ok kp else kp = []) /\ nth_error (V g) 2 = Some (KProcSet rs xs) /\
    let n := List.length (g_fonts g) in let i := Z.of_nat (List.length (V g)) in
    let dup := existsb (fun r => beqb (r_family r) family && (r_style r =? no_underline style)) rs in
    let c := if dup then 0 else u_fonts (g_cur g) in
    g_fonts g' = g_fonts g ++ [mkGF family t beyond [] c kerning style kp None (i + 3) i] /\
    V g' = set_nth 2 (fun _ => KProcSet (if dup then rs else rs ++ [mkRel family c (i + 4) (no_underline style)]) xs) (V g)
      ++ [KUnicode n (g_prot g); KDict n (g_prot g); KDesc n (i + 1); KCid n (i + 2); KFont n] /\
    g_cur g' = if dup then g_cur g else u_set_fonts (g_cur g) (c + 1).
Lemma V_proc : forall g, g_procset g = 2 -> (3 <= List.length (V g))%nat -> forall k, kind_at g (g_procset g) = Ok k -> nth_error (V g) 2 = Some (view k).
Proof. intros g E L k H. apply V_kind in H. rewrite E in H. apply H. Qed.
Lemma font_view : forall family kerning style file beyond g g', g_procset g = 2 -> (3 <= List.length (V g))%nat ->
  g_add_font family kerning style file beyond g = Ok (g', None) -> font_added g family kerning style file beyond g'.
Proof.
  intros family kerning style file beyond g g' EP LP H. unfold g_add_font in H. destruct file as [d|]; [|discriminate].
  destruct (parseTtf d) as [t| | |] eqn:Et; cbn [bind] in H; try discriminate.
  destruct (if kerning then parseKern d (tables t) else Ok []) as [kp| | |] eqn:Ek; cbn [bind] in H; try discriminate.
  assert (K : if kerning then parseKern d (tables t) = Ok kp else kp = []). { destruct kerning; [exact Ek|congruence]. }
  clear Ek. set (n := List.length (g_fonts g)) in *.
  destruct (addObj g _) as (g1, uni) eqn:E1. destruct (addObj g1 _) as (g2, dict) eqn:E2. destruct (addObj g2 _) as (g3, desc) eqn:E3. destruct (addObj g3 _) as (g4, cid) eqn:E4. destruct (addObj g4 _) as (g5, i) eqn:E5.
  set (i0 := Z.of_nat (List.length (V g))).
  assert (Q : V g5 = V g ++ [KUnicode n (g_prot g); KDict n (g_prot g); KDesc n (i0 + 1); KCid n (i0 + 2); KFont n] /\ uni = i0 /\ cid = i0 + 3 /\ i = i0 + 4 /\
    g_fonts g5 = g_fonts g /\ g_cur g5 = g_cur g /\ g_procset g5 = 2).
  { pose proof (V_add g (KUnicode n (g_prot g))) as V1. rewrite E1 in V1. pose proof (V_add g1 (KDict n (g_prot g1))) as V2. rewrite E2 in V2. pose proof (V_add g2 (KDesc n dict)) as V3. rewrite E3 in V3.
    pose proof (V_add g3 (KCid n desc)) as V4. rewrite E4 in V4. pose proof (V_add g4 (KFont n)) as V5. rewrite E5 in V5. cbn [fst view] in *.
    assert (L1 : uni = i0) by (apply (f_equal snd) in E1; cbn [addObj snd] in E1; unfold i0; rewrite V_len; symmetry; exact E1).
    assert (L2 : dict = i0 + 1) by (assert (dict = Z.of_nat (List.length (V g1))) as -> by (apply (f_equal snd) in E2; cbn [addObj snd] in E2; rewrite V_len; symmetry; exact E2); rewrite V1, app_length; unfold i0; cbn [List.length]; lia).
    assert (L3 : desc = i0 + 2) by (assert (desc = Z.of_nat (List.length (V g2))) as -> by (apply (f_equal snd) in E3; cbn [addObj snd] in E3; rewrite V_len; symmetry; exact E3); rewrite V2, V1, !app_length; unfold i0; cbn [List.length]; lia).
    assert (L4 : cid = i0 + 3) by (assert (cid = Z.of_nat (List.length (V g3))) as -> by (apply (f_equal snd) in E4; cbn [addObj snd] in E4; rewrite V_len; symmetry; exact E4); rewrite V3, V2, V1, !app_length; unfold i0; cbn [List.length]; lia).
    assert (L5 : i = i0 + 4) by (assert (i = Z.of_nat (List.length (V g4))) as -> by (apply (f_equal snd) in E5; cbn [addObj snd] in E5; rewrite V_len; symmetry; exact E5); rewrite V4, V3, V2, V1, !app_length; unfold i0; cbn [List.length]; lia).
    assert (P1 : g_prot g1 = g_prot g) by (cbn [addObj] in E1; injection E1 as <- _; reflexivity).
    split. { rewrite V5, V4, V3, V2, V1, P1, L2, L3, <- !app_assoc. reflexivity. }
    split; [exact L1|]. split; [exact L4|]. split; [exact L5|].
    apply (f_equal fst) in E1, E2, E3, E4, E5. cbn [fst addObj] in E1, E2, E3, E4, E5. rewrite <- E5, <- E4, <- E3, <- E2, <- E1. cbn [g_fonts g_cur g_procset g_set_objs]. auto. }
  clear E1 E2 E3 E4 E5. destruct Q as (Q1 & -> & -> & -> & Q2 & Q3 & Q4). rewrite Q4 in H. change (2 =? -1) with false in H. cbv iota in H.
  destruct (kind_at g5 2) as [ps| | |] eqn:Kp; cbn [bind] in H; try discriminate. apply V_kind in Kp. destruct Kp as (_ & Kp). change (Z.to_nat 2) with 2%nat in Kp. rewrite Q1, nth_error_app1 in Kp by lia.
  destruct ps as [| |rs xs| | | | | | | | | | |]; try discriminate. cbn [view] in Kp.
  exists d, t, kp, rs, xs. split; [reflexivity|]. split; [exact Et|]. split; [exact K|]. split; [exact Kp|]. cbv zeta. fold n i0.
  destruct (existsb _ rs).
  - assert (E2 : g' = g_set_fonts g5 (g_fonts g5 ++ [mkGF family t beyond [] 0 kerning style kp None (i0 + 3) i0])) by congruence. clear H. subst g'.
    split; [cbn [g_fonts g_set_fonts]; rewrite Q2; reflexivity|]. split; [|cbn [g_cur g_set_fonts]; exact Q3]. change (V (g_set_fonts g5 _)) with (V g5). rewrite Q1. rewrite set_nth_id by exact Kp. reflexivity.
  - match type of H with Ok (?a, _) = _ => assert (E2 : g' = a) by congruence end. clear H. subst g'.
    split; [cbn [g_fonts g_set_fonts g_set_cur put_kind g_set_objs]; rewrite Q2, Q3; reflexivity|]. split; [|cbn [g_cur g_set_fonts g_set_cur put_kind g_set_objs]; rewrite Q3; reflexivity].
    match goal with |- V (g_set_fonts (g_set_cur (put_kind ?a ?b ?c) ?d) ?e) = _ => change (V (g_set_fonts (g_set_cur (put_kind a b c) d) e)) with (V (put_kind a b c)) end.
    rewrite V_put, Q1, Q3. change (Z.to_nat 2) with 2%nat. rewrite set_nth_app by lia. reflexivity.
Qed.

(** ** Pictures *)
Definition image_added (w : gworld) (g : gp) (bey d : bytes) (g' : gp) : Prop :=
  exists info rs xs c info' rgb tail, parseImg (gw_config w) (gw_inflate w) (gw_compress w) bey d = Ok info /\ nth_error (V g) 2 = Some (KProcSet rs xs) /\
    let i := Z.of_nat (List.length (V g)) in blank_content c /\
    V g' = set_nth 2 (fun _ => KProcSet rs (xs ++ [i])) (V g) ++ KImage info' rgb (g_prot g) :: c ++ tail /\
    Forall (fun k => match k with KSMask _ _ | KRgb _ => True | _ => False end) tail /\
    (colspace info <> B"Indexed" -> rgb = 0 /\
      match createSMask info with
      | None => info' = info /\ tail = []
      | Some m => info' = setSMaskObjID info (i + 1 + Z.of_nat (List.length c)) /\ tail = [KSMask m (g_prot g)]
      end).
Lemma image_view : forall w bey id d x y r g g' e, g_procset g = 2 -> (3 <= List.length (V g))%nat -> g_image w bey id d x y r g = Ok (g', e) ->
  match e, find (fun c => beqb id (fst (fst c))) (u_cache (g_cur g)) with
  | None, None => image_added w g bey d g'
  | Some _, _ => g' = g
  | None, Some _ => drew g g'
  end.
Proof.
  intros w bey id d x y r g g' e EP LP H. unfold g_image in H. destruct (find _ _) as [((a, k), q)|] eqn:Ef.
  - destruct (k =? -1); [discriminate|]. destruct (match r with Some _ => _ | None => _ end); cbn [bind] in H; try discriminate.
    destruct (gok_small _ _ _ _ H) as (_ & ->). eapply gok_view; eauto.
  - destruct (match r with Some _ => _ | None => _ end) as [q| | |]; try discriminate; [|injection H as <- <-; reflexivity].
    destruct (parseImg _ _ _ _ _) as [info| | |] eqn:Ei; try discriminate; [|injection H as <- <-; reflexivity].
    unfold img_put in H. destruct (addObj g (KImage info 0 (g_prot g))) as (g1, i) eqn:Ea.
    assert (S1 : V g1 = V g ++ [KImage info 0 (g_prot g)]) by (pose proof (V_add g (KImage info 0 (g_prot g))) as X; rewrite Ea in X; exact X).
    assert (Li : i = Z.of_nat (List.length (V g))) by (apply (f_equal snd) in Ea; cbn [addObj snd] in Ea; rewrite V_len; symmetry; exact Ea).
    assert (P1 : g_procset g1 = 2 /\ g_prot g1 = g_prot g) by (cbn [addObj] in Ea; injection Ea as <- _; split; [exact EP|reflexivity]). destruct P1 as (P1 & PP1). clear Ea.
    rewrite P1 in H. change (2 =? -1) with false in H. cbv iota in H.
    destruct (kind_at g1 2) as [ps| | |] eqn:Kp; cbn [bind] in H; try discriminate. apply V_kind in Kp. destruct Kp as (_ & Kp). change (Z.to_nat 2) with 2%nat in Kp. rewrite S1, nth_error_app1 in Kp by lia.
    destruct ps as [| |rs xs| | | | | | | | | | |]; try discriminate. cbn [view] in Kp.
    destruct (draw g1 _) as [g3| | |] eqn:Ed; cbn [bind] in H; try discriminate. pose proof (draw_procset _ _ _ Ed) as Ep. destruct (draw_small _ _ _ Ed) as (_ & _ & PP3 & _). apply draw_view in Ed.
    destruct Ed as (c & S3 & Bc). rewrite P1 in Ep. rewrite Ep, PP1 in *. set (g2 := g_set_cur (put_kind g3 2 (KProcSet rs (xs ++ [i]))) (u_add_img (g_cur (put_kind g3 2 (KProcSet rs (xs ++ [i])))) id q)) in *.
    set (X := set_nth 2 (fun _ => KProcSet rs (xs ++ [i])) (V g)).
    assert (LX : List.length X = List.length (V g)) by (unfold X; apply set_nth_len).
    assert (S2 : V g2 = X ++ KImage info 0 (g_prot g) :: c).
    { change (V g2) with (V (put_kind g3 2 (KProcSet rs (xs ++ [i])))). rewrite V_put, S3, S1, <- app_assoc. change (Z.to_nat 2) with 2%nat. rewrite set_nth_app by lia. reflexivity. }
    assert (PP2 : g_prot g2 = g_prot g) by exact PP3. clearbody g2. clear S1 S3 Ep PP3 g3 P1 PP1 g1.
    assert (Ti : Z.to_nat i = List.length X) by (rewrite Li, Nat2Z.id, LX; reflexivity).
    set (g3 := match createSMask info with None => g2 | Some m => let (g, j) := addObj g2 (KSMask m (g_prot g2)) in put_kind g i (KImage (setSMaskObjID info j) 0 (g_prot g)) end) in *.
    assert (S3 : exists info' tail, V g3 = X ++ KImage info' 0 (g_prot g) :: c ++ tail /\ Forall (fun k => match k with KSMask _ _ | KRgb _ => True | _ => False end) tail /\
      match createSMask info with None => info' = info /\ tail = []
      | Some m => info' = setSMaskObjID info (i + 1 + Z.of_nat (List.length c)) /\ tail = [KSMask m (g_prot g)] end).
    { unfold g3. destruct (createSMask info) as [m|].
      - destruct (addObj g2 (KSMask m (g_prot g2))) as (g4, j) eqn:E4. assert (S4 : V g4 = V g2 ++ [KSMask m (g_prot g)]) by (pose proof (V_add g2 (KSMask m (g_prot g2))) as Y; rewrite E4, PP2 in Y; exact Y).
        assert (Ej : j = i + 1 + Z.of_nat (List.length c)). { assert (j = Z.of_nat (List.length (V g2))) as -> by (apply (f_equal snd) in E4; cbn [addObj snd] in E4; rewrite V_len; symmetry; exact E4). rewrite S2, app_length. cbn [List.length]. lia. }
        assert (Pg : g_prot g4 = g_prot g) by (cbn [addObj] in E4; injection E4 as <- _; exact PP2).
        exists (setSMaskObjID info j), [KSMask m (g_prot g)]. split; [|split; [constructor; [exact Logic.I|constructor]|split; [rewrite Ej; reflexivity|reflexivity]]].
        rewrite V_put, S4, S2, Ti, Pg, <- app_assoc, <- app_comm_cons, set_nth_mid. reflexivity.
      - exists info, []. rewrite app_nil_r. split; [exact S2|]. split; [constructor|auto]. }
    clearbody g3. clear S2. destruct S3 as (info' & tail & S3 & Ft & Fm). destruct (beqb (colspace info) (B"Indexed")) eqn:Eb.
    + destruct (addObj g3 (KRgb (pal info))) as (g4, j) eqn:E4. assert (S4 : V g4 = V g3 ++ [KRgb (pal info)]) by (pose proof (V_add g3 (KRgb (pal info))) as Y; rewrite E4 in Y; exact Y).
      destruct (kind_at g4 i) as [kk| | |] eqn:K; cbn [bind] in H; try discriminate. apply V_kind in K. destruct K as (_ & K). rewrite S4, S3, Ti, <- app_assoc, nth_error_app2, Nat.sub_diag in K by lia.
      cbn [app nth_error] in K. destruct kk; try discriminate. cbn [view] in K. injection K as <- <- <-. injection H as <- <-.
      exists info, rs, xs, c, info', j, (tail ++ [KRgb (pal info)]). split; [exact Ei|]. split; [exact Kp|]. cbv zeta. rewrite <- Li. fold X. split; [exact Bc|].
      split; [rewrite V_put, S4, S3, Ti, <- app_assoc, <- app_comm_cons, set_nth_mid, <- app_assoc; reflexivity|]. split; [apply Forall_app; split; [exact Ft|constructor; [exact Logic.I|constructor]]|].
      intros N. exfalso. apply N. apply beqb_eq. exact Eb.
    + injection H as <- <-. exists info, rs, xs, c, info', 0, tail. split; [exact Ei|]. split; [exact Kp|]. cbv zeta. rewrite <- Li. fold X. auto.
Qed.

(** ** All calls *)
Definition others (l : list gkind) : Prop := Forall (fun k => match k with KPage _ _ _ | KContent _ _ => True | _ => False end) l.
Definition plainly (g g' : gp) : Prop := exists l, V g' = V g ++ l /\ others l.
Lemma drew_plainly : forall g g', drew g g' -> plainly g g'.
Proof. intros g g' (l & E & [->| ->]); [exists []|exists [KContent [] []]]; (split; [exact E|]); repeat constructor. Qed.
Lemma same_plainly : forall g g', V g' = V g -> plainly g g'. Proof. intros g g' E. apply drew_plainly, drew_same, E. Qed.
Definition view_next (w : gworld) (g : gp) (c : gcall) (e : option err) (g' : gp) : Prop :=
  match c, e with
  | AddFont f k st file bey, None => font_added g f k st file bey g'
  | ImageBy id d bey _ _ _, None => if find (fun c => beqb id (fst (fst c))) (u_cache (g_cur g)) then drew g g' else image_added w g bey d g'
  | _, _ => plainly g g'
  end.
Lemma inv_three : forall cfg g pl, inv cfg g pl -> (3 <= List.length (V g))%nat.
Proof. intros cfg g pl [(fs & xs & rest & O & _) _ _ _ _]. rewrite V_len, O, app_length. cbn [List.length]. lia. Qed.
Theorem step_view : forall w g c g' e, g_procset g = 2 -> (3 <= List.length (V g))%nat -> gstep w g c = Ok (g', e) -> view_next w g c e g'.
Proof.
  intros w g c g' e EP LP H. unfold view_next. destruct c; cbn [gstep] in H;
    try (unfold gok in H; cbn [bind] in H; injection H as <- <-; apply same_plainly; reflexivity);
    try (apply drew_plainly; eapply gok_view; exact H);
    try (apply drew_plainly; eapply text_view; exact H).
  - unfold gok in H. cbn [bind] in H. injection H as <- <-. unfold g_add_page. cbv zeta.
    match goal with |- context [addObj ?a ?k] => pose proof (V_add a k) as X; destruct (addObj a k) as (g1, i) end.
    assert (Y : plainly g g1) by (eexists; split; [exact X|]; repeat constructor). destruct (g_first g1 =? -1); exact Y.
  - apply select_objs in H. apply same_plainly, V_objs. exact H.
  - apply select_objs in H. apply same_plainly, V_objs. exact H.
  - destruct e as [e|]; [|apply font_view; assumption]. unfold g_add_font in H. destruct (match file with Some _ => _ | None => _ end) as [(t, kp)| | |]; try discriminate; [|injection H as <- _; apply same_plainly; reflexivity].
    exfalso. destruct (addObj g _) as (g1, uni). destruct (addObj g1 _) as (g2, dict). destruct (addObj g2 _) as (g3, desc). destruct (addObj g3 _) as (g4, cid). destruct (addObj g4 _) as (g5, i).
    destruct (g_procset g5 =? -1); [discriminate|]. destruct (kind_at g5 (g_procset g5)) as [ps| | |]; cbn [bind] in H; try discriminate. destruct ps; try discriminate. destruct (existsb _ _); discriminate.
  - unfold g_kern_override in H. destruct (find_font _ _ _); injection H as <- _; apply same_plainly; reflexivity.
  - apply image_view in H; [|assumption|assumption]. destruct e as [e|]; [subst g'; apply same_plainly; reflexivity|]. destruct (find _ _); exact H.
  - unfold g_line_width in H. apply gok_view in H. apply drew_plainly. exact H.
  - unfold g_gray in H. apply gok_view in H. apply drew_plainly. exact H.
  - unfold gok in H. cbn [bind] in H. injection H as <- _. apply same_plainly. unfold g_compress_level. destruct (l <? -2); [reflexivity|]. destruct (9 <? l); reflexivity.
  - unfold g_measure in H. destruct (add_text_chars g text) as [[[g1 n] e1]| | |] eqn:E; cbn [bind] in H; try discriminate. destruct e1; [|discriminate].
    injection H as <- _. apply same_plainly, V_objs. eapply chars_objs; eauto.
Qed.
