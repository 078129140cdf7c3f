(** Objects of a document stay where they are; pictures with a palette. *)
From Coq Require Import String List ZArith Lia Bool.
From Coq.Floats Require Import SpecFloat.
From Verif Require Import Base BaseProofs Output Png Crypto Float64 Ttf Subset CharMap Text ApiIds GoPdf GoPdfSpec GoPdfFile GoPdfPages GoPdfRun GoPdfDoc GoPdfTree GoPdfState.
Open Scope Z_scope.
Open Scope list_scope.

(** ** What a call does to the objects that are there *)

Definition alike (k k' : gkind) : Prop :=
  k' = k \/ (exists s cs s' cs', k = KContent s cs /\ k' = KContent s' cs') \/ (exists a c a' c', k = KProcSet a c /\ k' = KProcSet a' c').
Definition stays (g g' : gp) : Prop := forall i o, nth_error (g_objs g) i = Some o -> exists o', nth_error (g_objs g') i = Some o' /\ alike (o_kind o) (o_kind o').

Lemma alike_refl : forall k, alike k k. Proof. intros k. left. reflexivity. Qed.
Lemma alike_trans : forall a b c, alike a b -> alike b c -> alike a c.
Proof.
  intros a b c [->|[(s & cs & s' & cs' & -> & ->)|(x & y & x' & y' & -> & ->)]] H; [exact H| |].
  - destruct H as [->|[(s1 & cs1 & s2 & cs2 & _ & ->)|(x1 & y1 & x2 & y2 & E & _)]]; [right; left; eauto 8|right; left; eauto 8|discriminate].
  - destruct H as [->|[(s1 & cs1 & s2 & cs2 & E & _)|(x1 & y1 & x2 & y2 & _ & ->)]]; [right; right; eauto 8|discriminate|right; right; eauto 8].
Qed.
Lemma stays_refl : forall g, stays g g. Proof. intros g i o H. exists o. split; [exact H|apply alike_refl]. Qed.
Lemma stays_same : forall g g', g_objs g' = g_objs g -> stays g g'. Proof. intros g g' E i o H. rewrite E. exists o. split; [exact H|apply alike_refl]. Qed.
Lemma stays_trans : forall a b c, stays a b -> stays b c -> stays a c.
Proof. intros a b c H1 H2 i o H. destruct (H1 _ _ H) as (o1 & N1 & A1). destruct (H2 _ _ N1) as (o2 & N2 & A2). exists o2. split; [exact N2|eapply alike_trans; eauto]. Qed.
Lemma stays_add : forall g k, stays g (fst (addObj g k)).
Proof. intros g k i o H. cbn [addObj fst g_objs g_set_objs]. exists o. split; [|apply alike_refl]. rewrite nth_error_app1; [exact H|]. apply nth_error_Some. congruence. Qed.
Lemma nth_set_at : forall A (f : A -> A) l i j, nth_error (set_nth i f l) j = if Nat.eqb i j then option_map f (nth_error l j) else nth_error l j.
Proof.
  intros A f. induction l as [|x l IH]; intros i j; [destruct i, j; try reflexivity; cbn [set_nth nth_error]; destruct (Nat.eqb _ _); reflexivity|].
  destruct i as [|i], j as [|j]; try reflexivity. cbn [set_nth nth_error Nat.eqb]. apply IH.
Qed.
Lemma stays_put : forall g i k k0, kind_at g i = Ok k0 -> alike k0 k -> stays g (put_kind g i k).
Proof.
  intros g i k k0 K A j o H. apply kind_at_nth in K. destruct K as (o0 & N & E & P). cbn [put_kind g_objs g_set_objs]. rewrite nth_set_at. destruct (Nat.eqb_spec (Z.to_nat i) j) as [<-|D].
  - rewrite H. cbn [option_map]. eexists. split; [reflexivity|]. cbn [o_kind]. assert (o0 = o) by congruence. subst o0. rewrite E. exact A.
  - exists o. split; [exact H|apply alike_refl].
Qed.
Lemma stays_new : forall g g1 i k, stays g g1 -> Z.of_nat (List.length (g_objs g)) <= i -> stays g (put_kind g1 i k).
Proof.
  intros g g1 i k S L j o H. destruct (S _ _ H) as (o' & N & A). cbn [put_kind g_objs g_set_objs]. rewrite nth_set_at. assert (j < List.length (g_objs g))%nat by (apply nth_error_Some; congruence).
  destruct (Nat.eqb_spec (Z.to_nat i) j) as [D|D]; [lia|]. exists o'. auto.
Qed.
Lemma getContent_stays : forall g g1 i s cs, getContent g = Ok (g1, i, s, cs) -> stays g g1 /\ kind_at g1 i = Ok (KContent s cs).
Proof.
  intros g g1 i s cs H. unfold getContent in H. destruct (g_content g <=? -1).
  - destruct (addObj g (KContent [] [])) as (g2, j) eqn:E. assert (S : stays g g2) by (pose proof (stays_add g (KContent [] [])) as X; rewrite E in X; exact X).
    injection H as <- <- <- <-. split; [exact S|]. cbn [addObj] in E. injection E as <- <-. unfold kind_at, at_. cbn [g_objs g_set_content g_set_objs].
    replace (Z.of_nat (List.length (g_objs g)) <? 0) with false by lia. rewrite Nat2Z.id, nth_error_app2, Nat.sub_diag by lia. reflexivity.
  - destruct (kind_at g (g_content g)) as [k| | |] eqn:E; cbn [bind] in H; try discriminate. destruct k; try discriminate. injection H as <- <- <- <-. split; [apply stays_refl|exact E].
Qed.
Lemma draw_stays : forall g f g', draw g f = Ok g' -> stays g g'.
Proof.
  intros g f g' H. unfold draw in H. destruct (getContent g) as [[[[g1 i] s] cs]| | |] eqn:E; cbn [bind] in H; try discriminate. injection H as <-.
  destruct (getContent_stays _ _ _ _ _ E) as (S & K). eapply stays_trans; [exact S|]. eapply stays_put; [exact K|]. right. left. eauto 8.
Qed.
Lemma gok_stays : forall g f g' e, gok (draw g f) = Ok (g', e) -> stays g g'.
Proof. intros g f g' e H. unfold gok in H. destruct (draw g f) as [g1| | |] eqn:E; cbn [bind] in H; try discriminate. injection H as <- <-. eapply draw_stays; eauto. Qed.
Lemma chars_objs : forall g t g' n e, add_text_chars g t = Ok (g', n, e) -> g_objs g' = g_objs g.
Proof.
  intros g t g' n e H. unfold add_text_chars in H. destruct (u_font (g_cur g)) as [k|]; [|discriminate]. destruct (nth_error (g_fonts g) k) as [f|]; [|discriminate].
  destruct (add_chars (gf_ttf f) t (gf_map f)) as (m, r). destruct r; try discriminate; injection H as <- _ _; reflexivity.
Qed.
Lemma text_stays : forall cell rect al bo fl t g g' e, text_call cell rect al bo fl t g = Ok (g', e) -> stays g g'.
Proof.
  intros cell rect al bo fl t g g' e H. unfold text_call in H. destruct (add_text_chars g t) as [[[g1 n] e1]| | |] eqn:E; cbn [bind] in H; try discriminate.
  apply chars_objs in E. apply stays_same in E. eapply stays_trans; [exact E|]. clear E. destruct e1 as [e1|]; [injection H as <- _; apply stays_refl|].
  unfold put_text in H. destruct (getContent g1) as [[[[g2 i] s] cs]| | |] eqn:E; cbn [bind] in H; try discriminate. destruct (getContent_stays _ _ _ _ _ E) as (S & K).
  eapply stays_trans; [exact S|]. destruct (append_text _ _ _ _) as [[[cs' x] y] r].
  assert (X : stays g2 (put_kind g2 i (KContent s cs'))) by (eapply stays_put; [exact K|]; right; left; eauto 8).
  destruct r; try discriminate; injection H as <- _; exact X.
Qed.
Lemma select_objs : forall f st sz g g' e, g_set_font f st sz g = Ok (g', e) -> g_objs g' = g_objs g.
Proof.
  intros f st sz g g' e H. unfold g_set_font in H. destruct (find_font _ _ _) as [n|]; [|injection H as <- _; reflexivity].
  destruct (nth_error _ n); [|discriminate]. injection H as <- _. reflexivity.
Qed.

(** The picture of a call: nothing else is put among the objects that were there. *)
Lemma image_stays : forall w bey id d x y r g g' e, g_image w bey id d x y r g = Ok (g', e) -> stays g g' /\
  (e = None -> find (fun c => beqb id (fst (fst c))) (u_cache (g_cur g)) = None -> forall info, parseImg (gw_config w) (gw_inflate w) (gw_compress w) bey d = Ok info ->
   beqb (colspace info) (B"Indexed") = true -> exists i o p, nth_error (g_objs g') i = Some o /\ o_kind o = KRgb p).
Proof.
  intros w bey id d x y r g g' e H. unfold g_image in H. destruct (find _ _) as [((a, k), q)|] eqn:Ef.
  - split; [|intros _ X; discriminate]. destruct (k =? -1); [discriminate|]. destruct (match r with Some _ => _ | None => _ end); cbn [bind] in H; try discriminate. eapply gok_stays; eauto.
  - destruct (match r with Some _ => _ | None => _ end) as [q| | |]; try discriminate; [|injection H as <- <-; split; [apply stays_refl|discriminate]].
    destruct (parseImg _ _ _ _ _) as [info| | |]; try discriminate; [|injection H as <- <-; split; [apply stays_refl|discriminate]].
    unfold img_put in H. destruct (addObj g (KImage info 0 (g_prot g))) as (g1, i) eqn:Ea. assert (S1 : stays g g1) by (pose proof (stays_add g (KImage info 0 (g_prot g))) as X; rewrite Ea in X; exact X).
    assert (Li : Z.of_nat (List.length (g_objs g)) <= i) by (cbn [addObj] in Ea; injection Ea as _ <-; lia). clear Ea.
    match type of H with bind ?m _ = _ => destruct m as [g2| | |] eqn:E; cbn [bind] in H; try discriminate end.
    assert (S2 : stays g g2).
    { eapply stays_trans; [exact S1|]. clear - E. destruct (g_procset g1 =? -1); [injection E as <-; apply stays_refl|].
      destruct (kind_at g1 (g_procset g1)) as [ps| | |] eqn:K; cbn [bind] in E; try discriminate. destruct ps; try discriminate.
      destruct (draw g1 _) as [g3| | |] eqn:Ed; cbn [bind] in E; try discriminate. pose proof (draw_procset _ _ _ Ed) as Ep. apply draw_stays in Ed. injection E as <-.
      eapply stays_trans; [exact Ed|]. apply kind_at_nth in K. destruct K as (o & N & Ko & P). destruct (Ed _ _ N) as (o' & N' & A). rewrite Ko in A. rewrite Ep.
      intros j oj Hj. cbn [put_kind g_objs g_set_objs g_set_cur]. rewrite nth_set_at. destruct (Nat.eqb_spec (Z.to_nat (g_procset g1)) j) as [<-|D].
      - rewrite Hj. cbn [option_map]. eexists. split; [reflexivity|]. cbn [o_kind]. assert (oj = o') by congruence. subst oj.
        destruct A as [->|[(s & cs & s' & cs' & X & _)|(x1 & y1 & x2 & y2 & _ & ->)]]; [right; right; eauto 8|discriminate|right; right; eauto 8].
      - exists oj. split; [exact Hj|apply alike_refl]. }
    clear E S1.
    set (g3 := match createSMask info with None => g2 | Some m => let (g, j) := addObj g2 (KSMask m (g_prot g2)) in put_kind g i (KImage (setSMaskObjID info j) 0 (g_prot g)) end) in *.
    assert (S3 : stays g g3).
    { unfold g3. destruct (createSMask info) as [m|]; [|exact S2]. destruct (addObj g2 _) as (g4, j) eqn:E4. apply stays_new; [|exact Li]. eapply stays_trans; [exact S2|].
      pose proof (stays_add g2 (KSMask m (g_prot g2))) as X. rewrite E4 in X. exact X. }
    clearbody g3. clear S2. destruct (beqb (colspace info) (B"Indexed")) eqn:Ei.
    + destruct (addObj g3 (KRgb (pal info))) as (g4, j) eqn:E4. pose proof (stays_add g3 (KRgb (pal info))) as X. rewrite E4 in X. cbn [fst] in X.
      destruct (kind_at g4 i) as [kk| | |] eqn:K; cbn [bind] in H; try discriminate. destruct kk; try discriminate. injection H as <- <-.
      split; [apply stays_new; [eapply stays_trans; eauto|exact Li]|]. intros _ _ info' _ _. apply kind_at_nth in K. destruct K as (o & N & Ko & P).
      cbn [addObj] in E4. injection E4 as <- <-. exists (List.length (g_objs g3)). cbn [put_kind g_objs g_set_objs] in *. rewrite nth_set_at. rewrite nth_error_app2, Nat.sub_diag in * by lia. cbn [nth_error option_map].
      destruct (Nat.eqb_spec (Z.to_nat i) (List.length (g_objs g3))) as [D|D]; [|eexists _, _; split; [reflexivity|reflexivity]].
      rewrite D in N. rewrite nth_error_app2, Nat.sub_diag in N by lia. cbn [nth_error] in N. assert (o = new_obj (KRgb (pal info))) by congruence. subst o. discriminate.
    + injection H as <- <-. split; [exact S3|]. intros _ _ info' E1 E2. assert (info' = info) by congruence. congruence.
Qed.

Lemma font_stays : forall f k st d b g g' e, g_add_font f k st d b g = Ok (g', e) -> stays g g'.
Proof.
  intros f k st d b g g' e H. unfold g_add_font in H. destruct (match d with Some _ => _ | None => _ end) as [(t, kp)| | |]; try discriminate; [|injection H as <- _; apply stays_refl].
  set (n := List.length (g_fonts g)) in *. clearbody n.
  destruct (addObj g _) as (g1, uni) eqn:E1. destruct (addObj g1 _) as (g2, dict) eqn:E2. destruct (addObj g2 _) as (g3, desc) eqn:E3. destruct (addObj g3 _) as (g4, cid) eqn:E4. destruct (addObj g4 _) as (g5, i) eqn:E5.
  assert (S : stays g g5).
  { apply (f_equal fst) in E1, E2, E3, E4, E5. cbn [fst] in *. rewrite <- E5. eapply stays_trans; [|apply stays_add]. rewrite <- E4. eapply stays_trans; [|apply stays_add].
    rewrite <- E3. eapply stays_trans; [|apply stays_add]. rewrite <- E2. eapply stays_trans; [|apply stays_add]. rewrite <- E1. apply stays_add. }
  clear E1 E2 E3 E4 E5. destruct (g_procset g5 =? -1); [injection H as <- _; exact S|].
  destruct (kind_at g5 (g_procset g5)) as [ps| | |] eqn:K; cbn [bind] in H; try discriminate. destruct ps as [| |rs xs| | | | | | | | | | |]; try discriminate.
  destruct (existsb _ rs); injection H as <- _; [exact S|]. eapply stays_trans; [exact S|].
  match goal with |- stays _ ?x => assert (X : stays g5 (put_kind g5 (g_procset g5) (KProcSet (rs ++ [mkRel f (u_fonts (g_cur g5)) i (no_underline st)]) xs))) end.
  { eapply stays_put; [exact K|]. right. right. eauto 8. }
  exact X.
Qed.
Theorem step_stays : forall w g c g' e, gstep w g c = Ok (g', e) -> stays g g'.
Proof.
  intros w g c g' e H. destruct c; cbn [gstep] in H;
    try (unfold gok in H; cbn [bind] in H; injection H as <- _; apply stays_same; reflexivity);
    try (eapply gok_stays; exact H);
    try (eapply text_stays; exact H).
  - unfold gok in H. cbn [bind] in H. injection H as <- _. unfold g_add_page. cbv zeta.
    match goal with |- context [addObj ?a ?k] => assert (X : stays g (fst (addObj a k))) by (pose proof (stays_add a k) as Y; exact Y); destruct (addObj a k) as (g1, i) end.
    cbn [fst] in X. destruct (g_first g1 =? -1); exact X.
  - apply select_objs in H. apply stays_same. exact H.
  - apply select_objs in H. apply stays_same. exact H.
  - eapply font_stays; eauto.
  - unfold g_kern_override in H. destruct (find_font _ _ _); injection H as <- _; apply stays_same; reflexivity.
  - apply image_stays in H. apply H.
  - unfold g_line_width in H. apply gok_stays in H. exact H.
  - unfold g_gray in H. apply gok_stays in H. exact H.
  - unfold gok in H. cbn [bind] in H. injection H as <- _. apply stays_same. unfold g_compress_level. destruct (l <? -2); [reflexivity|]. destruct (9 <? l); reflexivity.
  - unfold g_measure in H. destruct (add_text_chars g text) as [[[g1 n] e1]| | |] eqn:E; cbn [bind] in H; try discriminate. destruct e1; [|discriminate].
    injection H as <- _. apply stays_same. eapply chars_objs; eauto.
Qed.

Lemma runs_split : forall w g0 t g, runs w g0 t g -> forall a q c e b, t = a ++ (q, c, e) :: b -> exists q', runs w g0 a q /\ gstep w q c = Ok (q', e) /\ stays q' g.
Proof.
  intros w g0 t g R. induction R as [|t g c g' e R IH S]; intros a q c1 e1 b E; [destruct a; discriminate|]. destruct (last_cases _ b) as [->|(b' & y & ->)].
  - apply app_inj_tail in E. destruct E as (<- & E). assert (g = q) by congruence. assert (c = c1) by congruence. assert (e = e1) by congruence. subst. exists g'. split; [exact R|]. split; [exact S|apply stays_refl].
  - rewrite app_comm_cons, app_assoc in E. apply app_inj_tail in E. destruct E as (E & _). destruct (IH _ _ _ _ _ E) as (q' & A & C & D). exists q'. split; [exact A|]. split; [exact C|].
    eapply stays_trans; [exact D|]. eapply step_stays; eauto.
Qed.

(** The names of the pictures that are there came with earlier calls. *)
Definition names_image (id : bytes) (c : gcall) : bool := match c with ImageBy i _ _ _ _ _ => beqb id i | _ => false end.
Lemma cache_named : forall rnd cfg w g0 t g, g_start rnd cfg gp0 = Ok g0 -> runs w g0 t g -> forall x, In x (u_cache (g_cur g)) -> exists y, In y t /\ names_image (fst (fst x)) (snd (fst y)) = true.
Proof.
  intros rnd cfg w g0 t g S R. pose proof (inv_start _ _ _ S) as V0. induction R as [|t g c g' e R IH Sc]; intros x Hx.
  - destruct (start_small _ _ _ S) as (_ & _ & E). rewrite E in Hx. destruct Hx.
  - pose proof (inv_run _ _ _ _ _ V0 R) as V. destruct (step_small _ _ _ _ _ (inv_proc _ _ _ V) Sc) as (C & _ & _).
    assert (D : In x (u_cache (g_cur g)) \/ names_image (fst (fst x)) c = true).
    { destruct c; cbn [cur_next] in C; try (rewrite C in Hx; left; exact Hx).
      - unfold selects in C. destruct e; [destruct C as (C & _); rewrite C in Hx; left; exact Hx|]. destruct C as (n & f & _ & _ & C). rewrite C in Hx. left. exact Hx.
      - unfold selects in C. destruct e; [destruct C as (C & _); rewrite C in Hx; left; exact Hx|]. destruct C as (n & f & _ & _ & C). rewrite C in Hx. left. exact Hx.
      - destruct C as (k & C). rewrite C in Hx. left. exact Hx.
      - destruct C as (a & b & C). rewrite C in Hx. left. exact Hx.
      - destruct C as (a & b & C). rewrite C in Hx. left. exact Hx.
      - destruct C as (a & b & C). rewrite C in Hx. left. exact Hx.
      - destruct e; [rewrite C in Hx; left; exact Hx|]. destruct (find _ _); [rewrite C in Hx; left; exact Hx|]. destruct C as (q & C & _). rewrite C in Hx. cbn [u_add_img u_cache] in Hx.
        apply in_app_iff in Hx. destruct Hx as [Hx|[<-|[]]]; [left; exact Hx|right]. cbn [names_image fst]. apply beqb_eq. reflexivity.
      - destruct C as (a & b & C). rewrite C in Hx. left. exact Hx. }
    destruct D as [D|D]; [destruct (IH x D) as (y0 & I0 & N0); exists y0; split; [apply in_app_iff; left; exact I0|exact N0]|].
    exists (g, c, e). split; [apply in_app_iff; right; left; reflexivity|exact D].
Qed.

(** ** C71: a picture with a palette makes saving impossible *)

Lemma palette_found : forall w rnd cfg t F, document w rnd cfg t F -> forall a q id d bey x y r b, t = a ++ (q, ImageBy id d bey x y r, None) :: b ->
  find (fun c => beqb id (fst (fst c))) (u_cache (g_cur q)) = None -> forall info, parseImg (gw_config w) (gw_inflate w) (gw_compress w) bey d = Ok info -> colspace info <> B"Indexed".
Proof.
  intros w rnd cfg t F D a q id d bey x y r b E Fn info P C. destruct (doc_facts _ _ _ _ _ D) as (g0 & g & bs & inf & S & R & V & _ & _ & _ & _ & _ & K).
  destruct (runs_split _ _ _ _ R _ _ _ _ _ E) as (q' & Ra & Sq & St). cbn [gstep] in Sq. apply image_stays in Sq. destruct Sq as (_ & X).
  destruct (X eq_refl Fn info P) as (i & o & p & No & Ko); [apply beqb_eq; exact C|]. destruct (St _ _ No) as (o' & No' & A). rewrite Ko in A.
  assert (Ko' : o_kind o' = KRgb p) by (destruct A as [->|[(s1 & c1 & s2 & c2 & A & _)|(s1 & c1 & s2 & c2 & A & _)]]; [reflexivity|discriminate|discriminate]).
  assert (Nw : nth_error (with_enc g) i = Some o'). { unfold with_enc. rewrite nth_error_app1; [exact No'|]. apply nth_error_Some. congruence. }
  destruct (K _ _ Nw) as (lk & b1 & kd & lk' & B1 & _). rewrite linked_at, Ko' in B1. cbn [build1] in B1. discriminate.
Qed.
Theorem palette_fatal : forall w rnd cfg t F, document w rnd cfg t F -> forall a g id d bey x y r b, t = a ++ (g, ImageBy id d bey x y r, None) :: b ->
  (forall z, In z a -> names_image id (snd (fst z)) = false) -> forall info, parseImg (gw_config w) (gw_inflate w) (gw_compress w) bey d = Ok info -> colspace info <> B"Indexed".
Proof.
  intros w rnd cfg t F D a q id d bey x y r b E Hn info P. eapply palette_found; eauto. destruct D as (g0 & g & g' & S & R & _). destruct (runs_split _ _ _ _ R _ _ _ _ _ E) as (q' & Ra & _).
  destruct (find _ _) as [c|] eqn:Ef; [|reflexivity]. apply find_some in Ef. destruct Ef as (I1 & I2). apply beqb_eq in I2. destruct (cache_named _ _ _ _ _ _ S Ra _ I1) as (z & Iz & Nz).
  rewrite <- I2 in Nz. rewrite (Hn z Iz) in Nz. discriminate.
Qed.
