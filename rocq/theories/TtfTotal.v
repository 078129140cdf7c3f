(** Parsing any bytes ends; when it panics and when not. *)
From Coq Require Import String List ZArith Lia Bool.
From Verif Require Import Base BaseProofs Ttf TtfSpec TtfProofs TtfTables.
Open Scope Z_scope.
Open Scope list_scope.

Ltac rtame := first [exact I | apply readUShort_tame | apply readULong_tame | apply readShort_tame | apply readN_tame].
Ltac tstep := apply tame_bind; [rtame|]; let x := fresh "x" in let p := fresh "p" in let E := fresh "E" in intros [x p] E.

Lemma seekTag_tame : forall t tag, tame (seekTag t tag).
Proof. intros. unfold seekTag. destruct (table_of t tag); exact I. Qed.
Ltac seek := apply tame_bind; [apply seekTag_tame|]; let p := fresh "p" in let E := fresh "E" in intros p E.

Lemma parseHead_tame : forall d t, tame (parseHead d t).
Proof. intros. unfold parseHead. seek. tstep. destruct (negb _); [exact I|]. repeat tstep. exact I. Qed.
Lemma parseHhea_tame : forall d t, tame (parseHhea d t).
Proof. intros. unfold parseHhea. seek. repeat tstep. exact I. Qed.
Lemma parseMaxp_tame : forall d t, tame (parseMaxp d t).
Proof. intros. unfold parseMaxp. seek. rtame. Qed.
Lemma parseOS2_tame : forall d t a, tame (parseOS2 d t a).
Proof. intros. unfold parseOS2. seek. do 8 tstep. destruct (2 <=? x); [|exact I]. repeat tstep. exact I. Qed.
Lemma parsePost_tame : forall d t, tame (parsePost d t).
Proof. intros. unfold parsePost. seek. repeat tstep. exact I. Qed.
Lemma readName_tame : forall d p, tame (readName d p).
Proof. intros. unfold readName. repeat tstep. exact I. Qed.
Lemma nameLoop_tame : forall d base n p, tame (nameLoop d base n p).
Proof.
  intros d base. induction n as [|n IH]; intros p; cbn [nameLoop]; [exact I|].
  apply tame_bind; [apply readName_tame|]. intros [[[id len] off] q] _.
  destruct (id =? 6); [tstep; exact I|apply IH].
Qed.
Lemma parseName_tame : forall d t, tame (parseName d t).
Proof.
  intros. unfold parseName. seek. repeat tstep. apply tame_bind; [apply nameLoop_tame|]. intros [|? ?] _; exact I.
Qed.

Lemma seekTag_range : forall d t tag p, Forall bytep d -> directory d t -> seekTag t tag = Ok p -> 0 <= p.
Proof.
  intros d t tag p Hb D H. unfold seekTag in H. destruct (table_of t tag) eqn:E; [|discriminate].
  apply (table_range _ _ _ _ Hb D) in E. injection H as <-. lia.
Qed.
Lemma seekTag'_range : forall d t tag p, Forall bytep d -> directory d t -> 0 <= p -> 0 <= seekTag' t tag p.
Proof.
  intros d t tag p Hb D H. unfold seekTag'. destruct (table_of t tag) eqn:E; [|auto].
  apply (table_range _ _ _ _ Hb D) in E. lia.
Qed.

Lemma readEnc_tame : forall d p, tame (readEnc d p).
Proof. intros. unfold readEnc. repeat tstep. exact I. Qed.
Lemma readGroup_tame : forall d p, tame (readGroup d p).
Proof. intros. unfold readGroup. repeat tstep. exact I. Qed.
Lemma group_steps0 : forall d, steps d 12 (readGroup d).
Proof.
  intros d p x q Hp H. unfold readGroup in H. rd H a p1 E1. rd H b p2 E2. rd H c p3 E3. inversion H; subst.
  pose proof (u32_pos _ _ _ E1). lia.
Qed.

Lemma parseLoca_tame : forall d t loc, Forall bytep d -> directory d t -> tame (parseLoca d t loc).
Proof.
  intros d t loc Hb D. unfold parseLoca. apply tame_bind; [apply seekTag_tame|]. intros p E.
  apply (seekTag_range _ _ _ _ Hb D) in E.
  apply tame_bind; [|intros [l q] _; exact I].
  destruct (loc =? 0).
  - apply (loop_tame _ d 2); [lia| | |auto].
    + intros a x q Ha H. rd H v p1 E1. inversion H; subst. apply u16_pos in E1. lia.
    + intros a. tstep. exact I.
  - apply (loop_tame _ d 4); [lia|apply ulong_steps|intros; rtame|auto].
Qed.

Lemma scanSeg_tame : forall d k c ro p, tame (scanSeg d k c ro p).
Proof.
  intros d. induction k as [|k IH]; intros c ro p; cbn [scanSeg]; [exact I|].
  destruct (c =? 65535); [exact I|]. destruct (0 <? ro); [tstep; apply IH|apply IH].
Qed.
Lemma scanSeg_pos : forall d k c ro p q, 0 <= p -> scanSeg d k c ro p = Ok q -> 0 <= q.
Proof.
  intros d. induction k as [|k IH]; intros c ro p q Hp H; cbn [scanSeg] in H; [inversion H; lia|].
  destruct (c =? 65535); [inversion H; lia|]. destruct (0 <? ro); [|eauto].
  rd H v p1 E1. eapply IH; [|exact H]. lia.
Qed.
Lemma scanSegs_tame : forall d off starts i ends ros p, tame (scanSegs d off i starts ends ros p).
Proof.
  intros d off. induction starts as [|a starts IH]; intros i ends ros p; cbn [scanSegs]; [exact I|].
  destruct ends; [exact I|]. destruct ros; [exact I|]. apply tame_bind; [apply scanSeg_tame|]. intros q _. apply IH.
Qed.
Lemma scanSegs_pos : forall d off starts i ends ros p q, 0 <= off -> 0 <= i -> 0 <= p ->
  scanSegs d off i starts ends ros p = Ok q -> 0 <= q.
Proof.
  intros d off. induction starts as [|a starts IH]; intros i ends ros p q Ho Hi Hp H; cbn [scanSegs] in H; [inversion H; lia|].
  destruct ends; [inversion H; lia|]. destruct ros as [|ro ros]; [inversion H; lia|].
  apply bind_ok in H as (p1 & E & H). eapply IH; [lia| | |exact H]; [lia|].
  eapply scanSeg_pos; [|exact E]. destruct (Z.ltb_spec 0 ro); lia.
Qed.

Lemma encs_pos : forall d n p l q, 0 <= p -> loop d (readEnc d) n p = Ok (l, q) ->
  0 <= q /\ forall a b o, In (a, b, o) l -> exists r, u32 d r = Some o.
Proof.
  intros d n p l q Hp H. destruct (loop_ok _ d 8 _ ltac:(lia) (enc_steps d) n p l q Hp H) as (L & Q & N).
  split; [lia|]. intros a b o Hi. apply In_nth_error in Hi as (i & E). apply N in E. unfold readEnc in E.
  apply bind_ok in E as ([x p1] & E1 & E). apply readUShort_ok in E1 as [_ ->]; [|lia].
  apply bind_ok in E as ([y p2] & E2 & E). apply readUShort_ok in E2 as [_ ->]; [|lia].
  apply bind_ok in E as ([z p3] & E3 & E). apply readULong_ok in E3 as [E3 ->]; [|lia].
  assert (z = o) by congruence. subst z. eauto.
Qed.

Lemma parseCmap12_tame : forall d t p, Forall bytep d -> directory d t -> 0 <= p -> tame (parseCmap12 d t p).
Proof.
  intros d t p Hb D Hp. unfold parseCmap12. pose proof (seekTag'_range _ _ (B"cmap") p Hb D Hp).
  apply tame_bind; [rtame|]. intros [n p1] E1. apply readUShort_ok in E1 as [_ ->]; [|lia].
  apply tame_bind; [apply (loop_tame _ d 8); [lia|apply enc_steps|apply readEnc_tame|lia]|].
  intros [encs p2] E2. apply encs_pos in E2 as [Hp2 Ho]; [|lia].
  destruct (find _ encs) as [[[a b] off]|] eqn:F; [|exact I].
  apply find_some in F as [F _]. apply Ho in F as (r & F). apply u32_range in F; [|auto].
  pose proof (table0_range _ _ (B"cmap") Hb D).
  apply tame_bind; [rtame|]. intros [fm p3] E3. apply readUShort_ok in E3 as [_ ->]; [|lia].
  destruct (negb _); [exact I|].
  apply tame_bind; [rtame|]. intros [rs p4] E4. apply readUShort_ok in E4 as [_ ->]; [|lia].
  destruct (negb _); [exact I|].
  apply tame_bind; [rtame|]. intros [ng p5] E5. apply readULong_ok in E5 as [_ ->]; [|lia].
  apply tame_bind; [apply (loop_tame _ d 12); [lia|apply group_steps0|apply readGroup_tame|lia]|].
  intros [gs q] _. exact I.
Qed.

Lemma fold_in : forall (l : list (Z * Z * Z)) a,
  fold_left (fun acc x => let '(p, e, o) := x in if (p =? 3) && (e =? 1) then o else acc) l a = a \/
  exists p e o, In (p, e, o) l /\ fold_left (fun acc x => let '(p, e, o) := x in if (p =? 3) && (e =? 1) then o else acc) l a = o.
Proof.
  induction l as [|[[p e] o] l IH]; intros a; [left; reflexivity|]. cbn [fold_left].
  destruct (IH (if (p =? 3) && (e =? 1) then o else a)) as [E|(p' & e' & o' & Hi & E)]; rewrite E.
  - destruct (_ && _); [right|left; auto]. exists p, e, o. split; [left|]; auto.
  - right. exists p', e', o'. split; [right|]; auto.
Qed.

Lemma ushorts_pos : forall d n p l q, 0 <= p -> loop d (readUShort d) n p = Ok (l, q) -> 0 <= q.
Proof. intros d n p l q Hp H. apply (loop_ok _ d 2 _ ltac:(lia) (ushort_steps d) n p l q Hp) in H as (_ & -> & _). lia. Qed.
Lemma ushorts_tame : forall d n p, 0 <= p -> tame (loop d (readUShort d) n p).
Proof. intros. apply (loop_tame _ d 2); [lia|apply ushort_steps|intros; rtame|auto]. Qed.

Lemma parseCmap_tame : forall d t p, Forall bytep d -> directory d t -> 0 <= p -> tame (parseCmap d t p).
Proof.
  intros d t p Hb D Hp. unfold parseCmap. pose proof (seekTag'_range _ _ (B"cmap") p Hb D Hp).
  apply tame_bind; [rtame|]. intros [n p1] E1. apply readUShort_ok in E1 as [_ ->]; [|lia].
  apply tame_bind; [apply (loop_tame _ d 8); [lia|apply enc_steps|apply readEnc_tame|lia]|].
  intros [encs p2] E2. apply encs_pos in E2 as [Hp2 Ho]; [|lia]. cbv zeta.
  assert (Hoff : 0 <= fold_left (fun acc x => let '(p, e, o) := x in if (p =? 3) && (e =? 1) then o else acc) encs 0).
  { destruct (fold_in encs 0) as [->|(pp & e & o & Hi & ->)]; [lia|].
    apply Ho in Hi as (r & F). apply u32_range in F; [lia|auto]. }
  destruct (_ =? 0); [exact I|]. pose proof (table0_range _ _ (B"cmap") Hb D).
  apply tame_bind; [rtame|]. intros [fm p3] E3. apply readUShort_ok in E3 as [_ ->]; [|lia].
  destruct (negb _); [exact I|].
  apply tame_bind; [rtame|]. intros [len p4] E4. apply readUShort_ok in E4 as [_ ->]; [|lia].
  apply tame_bind; [rtame|]. intros [sc p5] E5. apply readUShort_ok in E5 as [_ ->]; [|lia].
  apply tame_bind; [apply ushorts_tame; lia|]. intros [en p6] E6. apply ushorts_pos in E6; [|lia].
  apply tame_bind; [apply ushorts_tame; lia|]. intros [st p7] E7. apply ushorts_pos in E7; [|lia].
  apply tame_bind; [apply ushorts_tame; lia|]. intros [de p8] E8. apply ushorts_pos in E8; [|lia].
  apply tame_bind; [apply ushorts_tame; lia|]. intros [ro p9] E9. apply ushorts_pos in E9; [|lia].
  apply tame_bind; [apply ushorts_tame; lia|]. intros [gi p10] E10. apply ushorts_pos in E10; [|lia].
  apply tame_bind; [apply scanSegs_tame|]. intros p11 E11. apply scanSegs_pos in E11; [|lia|lia|lia].
  apply tame_bind; [apply parseCmap12_tame; auto|]. intros gs _. exact I.
Qed.

(** hmtx panics exactly when there are glyphs but no metrics *)
Lemma parseHmtx_total : forall d t p nm ng, Forall bytep d -> directory d t -> 0 <= p -> 0 <= nm ->
  tame (parseHmtx d t p nm ng) \/ (nm = 0 /\ 0 < ng /\ parseHmtx d t p nm ng = Panic).
Proof.
  intros d t p nm ng Hb D Hp Hn. unfold parseHmtx. pose proof (seekTag'_range _ _ (B"hmtx") p Hb D Hp) as Hs.
  assert (T : tame (loop d (fun pos => do (a, p) <- readUShort d pos; Ok (a, p + 2)) nm (seekTag' t (B"hmtx") p))).
  { apply (loop_tame _ d 4); [lia|apply metric_steps| |auto]. intros a. tstep. exact I. }
  destruct (loop _ _ _ _) as [[w q]|e| |] eqn:E; cbn [bind]; try (left; exact T; fail).
  destruct (loop_ok _ d 4 _ ltac:(lia) (metric_steps d) _ _ _ _ Hs E) as (L & _ & _).
  destruct (Z.ltb_spec nm ng); [|left; exact I].
  destruct (Z.eqb_spec nm 0); [right; split; [auto|]; split; [lia|reflexivity]|]. left.
  unfold at_. destruct (Z.ltb_spec (nm - 1) 0); [lia|].
  destruct (nth_error w (Z.to_nat (nm - 1))) eqn:N; [exact I|]. apply nth_error_None in N. lia.
Qed.

Definition zero_metrics (d : bytes) : Prop :=
  exists i j h m n, dir_tag d i = Some (B"hhea") /\ dir_off d i = Some h /\ u16 d (h + 34) = Some 0 /\
    dir_tag d j = Some (B"maxp") /\ dir_off d j = Some m /\ u16 d (m + 4) = Some n /\ 0 < n.

Lemma seekTag_dir : forall d t tag p, directory d t -> seekTag t tag = Ok p ->
  exists i, dir_tag d i = Some tag /\ dir_off d i = Some p.
Proof.
  intros d t tag p D H. unfold seekTag in H. destruct (table_of t tag) eqn:E; [|discriminate].
  destruct (table_dir _ _ _ _ D E) as (i & _ & T & _ & O & _). exists i. cbn [fst snd] in *. injection H as <-. auto.
Qed.

Theorem parse_total : forall d, Forall bytep d -> tame (parseTtf d) \/ (parseTtf d = Panic /\ zero_metrics d).
Proof.
  intros d Hb. unfold parseTtf.
  pose proof (readN_tame d 0 4) as T1. destruct (readN d 0 4) as [[v p1]|e| |] eqn:E1; cbn [bind]; try (left; exact T1).
  apply readN_ok in E1 as [E1 ->]; try lia. clear T1.
  destruct (negb _); [left; exact I|].
  pose proof (readUShort_tame d (0 + 4)) as T. destruct (readUShort d (0 + 4)) as [[n p2]|e| |] eqn:E2; cbn [bind]; try (left; exact T).
  apply readUShort_ok in E2 as [E2 ->]; [|lia]. pose proof (u16_range _ _ _ Hb E2). clear T.
  assert (T : tame (loop d (readEntry d) n (0 + 4 + 2 + 6))) by (apply (loop_tame _ d 16); [lia|apply entry_steps|apply readEntry_tame|lia]).
  destruct (loop _ _ _ _) as [[tb p3]|e| |] eqn:E3; cbn [bind]; try (left; exact T). clear T.
  assert (D : directory d tb) by (eapply directory_ok; [| |exact E3]; [lia|exact E2]).
  pose proof (parseHead_tame d tb) as T. destruct (parseHead d tb) as [[[u [[[x0 y0] x1] y1]] loc]|e| |]; cbn [bind]; try (left; exact T). clear T.
  pose proof (parseHhea_tame d tb) as T. destruct (parseHhea d tb) as [[[asc desc] nm]|e| |] eqn:Eh; cbn [bind]; try (left; exact T). clear T.
  pose proof (parseMaxp_tame d tb) as T. destruct (parseMaxp d tb) as [[ng p4]|e| |] eqn:Em; cbn [bind]; try (left; exact T). clear T.
  assert (Hh : exists i h, dir_tag d i = Some (B"hhea") /\ dir_off d i = Some h /\ u16 d (h + 34) = Some nm).
  { unfold parseHhea in Eh. apply bind_ok in Eh as (h & S & Eh). destruct (seekTag_dir _ _ _ _ D S) as (i & I1 & I2).
    pose proof (seekTag_range _ _ _ _ Hb D S).
    rd Eh a q1 F1. rd Eh b q2 F2. rd Eh c q3 F3. assert (c = nm) by congruence. subst c.
    exists i, h. repeat split; auto. rewrite <- F3. f_equal. lia. }
  assert (Hm : 0 <= p4 /\ exists j m, dir_tag d j = Some (B"maxp") /\ dir_off d j = Some m /\ u16 d (m + 4) = Some ng).
  { unfold parseMaxp in Em. apply bind_ok in Em as (m & S & Em). destruct (seekTag_dir _ _ _ _ D S) as (i & I1 & I2).
    pose proof (seekTag_range _ _ _ _ Hb D S). apply readUShort_ok in Em as [Em ->]; [|lia]. split; [lia|]. exists i, m. auto. }
  destruct Hh as (i & h & I1 & I2 & I3). destruct Hm as (Hp & j & m & J1 & J2 & J3).
  pose proof (u16_range _ _ _ Hb I3).
  destruct (parseHmtx_total d tb p4 nm ng Hb D Hp ltac:(lia)) as [T|(Z1 & Z2 & Z3)].
  2:{ rewrite Z3. right. split; [reflexivity|]. subst nm. exists i, j, h, m, ng. auto 10. }
  destruct (parseHmtx d tb p4 nm ng) as [[w p5]|e| |] eqn:Ew; cbn [bind]; try (left; exact T). clear T.
  left.
  assert (Hp5 : 0 <= p5).
  { unfold parseHmtx in Ew. apply bind_ok in Ew as ([w0 q] & El & Ew).
    apply (loop_ok _ d 4 _ ltac:(lia) (metric_steps d)) in El as (_ & Q & _); [|apply (seekTag'_range _ _ _ _ Hb D); auto].
    pose proof (seekTag'_range _ _ (B"hmtx") p4 Hb D Hp).
    assert (p5 = q); [|lia]. destruct (nm <? ng); [|congruence]. destruct (nm =? 0); [discriminate|].
    apply bind_ok in Ew as (la & _ & Ew). congruence. }
  apply tame_bind; [apply parseCmap_tame; auto|]. intros [[sc [[[[st en] de] ro] gi]] gs] _.
  apply tame_bind; [apply parseName_tame|]. intros [] _.
  apply tame_bind; [apply parseOS2_tame|]. intros [[[[[[ver ta] td] wa] wd] sx] ch] _.
  apply tame_bind; [apply parsePost_tame|]. intros [[ia up] ut] _.
  apply tame_bind; [apply parseLoca_tame; auto|]. intros [short l] _. exact I.
Qed.
