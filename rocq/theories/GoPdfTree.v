(** Catalog, page tree and pages of a document. *)
From Coq Require Import String List ZArith Lia Bool.
From Coq.Floats Require Import SpecFloat.
From Verif Require Import Base BaseProofs Output Png Crypto Float64 Ttf Subset Text ApiIds PdfSyntax PdfSyntaxProofs TextSpec TextNumbers TextDraw GoPdf GoPdfSpec GoPdfFile GoPdfPages GoPdfRun GoPdfDoc.
Open Scope Z_scope.
Open Scope list_scope.

(** ** Everything about a document *)

Theorem doc_facts : forall w rnd cfg t F, document w rnd cfg t F -> exists g0 g bs info,
  g_start rnd cfg gp0 = Ok g0 /\ runs w g0 t g /\ inv cfg g (map (made w) (pages_of t)) /\ info = g_info g /\
  F = file bs (if cfg_use cfg then Some (enc_of (with_enc g) 0 (g_enc g)) else None) info /\ List.length bs = List.length (with_enc g) /\
  (cfg_use cfg = true -> exists p, g_prot g = Some p) /\ scan (with_enc g) = scan (g_objs g) /\
  forall k o, nth_error (with_enc g) k = Some o -> exists lk b kd lk',
    build1 w g lk (1 + Z.of_nat k) (o_kind (linked 1 (scan (g_objs g)) k o)) = Ok (b, kd, lk') /\ nth_error bs k = Some b /\ (k = 2%nat -> lk = 0).
Proof.
  intros w rnd cfg t F (g0 & g & g' & S & R & H). pose proof (inv_run cfg w g0 t g (inv_start _ _ _ S) R) as V.
  apply bytes_file in H. destruct H as (gp & bs & P & L & EF & K). destruct (prepared _ _ _ _ V P) as (Egp & Es & Ep).
  destruct (iv_cfg _ _ _ V) as (Ec & _ & _ & El). destruct (iv_objs _ _ _ V) as (fs & xs & rest & Eo & Ri). pose proof (iv_fresh _ _ _ V) as Fr.
  rewrite Es in Egp. subst gp. cbn [g_objs g_set_enc g_set_objs g_cfg g_enc g_info g_cur] in *. rewrite Ec in *.
  exists g0, g, bs, (g_info g). split; [exact S|]. split; [exact R|]. split; [exact V|]. split; [reflexivity|]. split; [exact EF|]. rewrite mapi_len in L. split; [exact L|].
  split; [exact Ep|]. split; [exact Es|].
  intros k o Ek. specialize (K k (linked 1 (scan (g_objs g)) k o)). rewrite nth_mapi, Ek in K. cbn [option_map] in K. rewrite ?Nat.add_0_l in K.
  destruct (K eq_refl) as (lk & b & kd & lk' & B1 & N1 & Hl). exists lk, b, kd, lk'. split; [exact B1|].
  assert (Bo : o_buf o = []).
  { unfold with_enc in Ek. assert (In o (g_objs g ++ (if cfg_use (g_cfg g) then match g_prot g with Some p => [new_obj (KEncrypt p)] | None => [] end else []))) as Ho by (eapply nth_error_In; eauto).
    apply in_app_iff in Ho. destruct Ho as [Ho|Ho]; [rewrite Forall_forall in Fr; apply (Fr o Ho)|].
    destruct (cfg_use (g_cfg g)); [|contradiction]. destruct (g_prot g); [|contradiction]. destruct Ho as [<-|[]]. reflexivity. }
  split. { cbn [linked o_buf] in N1. rewrite Bo in N1. exact N1. }
  intros ->. rewrite <- El. apply Hl. intros j o' Hj Ej. rewrite nth_mapi in Ej. unfold with_enc in Ej. rewrite Eo in Ej.
  destruct j as [|[|j]]; [| |lia]; cbn [app nth_error option_map] in Ej; injection Ej as <-; reflexivity.
Qed.

(** ** Dictionaries *)

Definition kid_list (l : list Z) : bytes := flat_map g_ref l.
Lemma g_ref_shape : forall i r, g_ref i ++ r = B" " ++ itoa (i + 1) ++ B" " ++ itoa 0 ++ B" R" ++ (32 :: r).
Proof. intros i r. unfold g_ref. rewrite <- !app_assoc. reflexivity. Qed.
Lemma skip_ref : forall i r, exists c x, skip (g_ref i ++ r) = c :: x /\ c <> 93.
Proof.
  intros i r. rewrite g_ref_shape. destruct (itoa_hd (i + 1)) as (c & x & E & W & D). rewrite E.
  rewrite skip_blank by blanks. cbn [app]. rewrite skip_start by exact W. eexists c, _. split; [reflexivity|].
  destruct D as [D| ->]; [|discriminate]. unfold is_digit in D. lia.
Qed.
Lemma kids_read : forall l w r, blank w -> reads_items (w ++ flat_map g_ref l ++ B" ]" ++ r) (map (fun k => PRef (k + 1) 0) l) r.
Proof.
  induction l as [|i l IH]; intros w r Hw.
  - cbn [flat_map map app]. change (w ++ B" ]" ++ r) with (w ++ B" " ++ (B"]" ++ r)). rewrite app_assoc.
    apply items_end. apply Forall_app. split; [exact Hw|blanks].
  - cbn [flat_map map]. rewrite <- app_assoc. destruct (skip_ref i (flat_map g_ref l ++ B" ]" ++ r)) as (c & x & S & N).
    eapply items_step; [rewrite skip_blank by exact Hw; exact S|exact N| |].
    + rewrite g_ref_shape. rewrite app_assoc. apply reads_ref; [apply Forall_app; split; [exact Hw|blanks]|lia|reflexivity].
    + apply (IH [32] r). blanks.
Qed.

Definition box_of (w h : f64) : pv := PArr [PInt 0; PInt 0; PWord (fmt2 w); PWord (fmt2 h)].
Lemma box_is : forall w h, finite w -> finite h -> is_box (box_of w h) (w, h).
Proof. intros w h Fw Fh. destruct (cents_num w Fw), (cents_num h Fh). exists (PWord (fmt2 w)), (PWord (fmt2 h)), (cents w), (cents h). auto 10. Qed.
Lemma skip_fmt : forall x r, finite x -> exists c y, skip (B" " ++ fmt2 x ++ r) = c :: y /\ c <> 93.
Proof.
  intros x r Fx. destruct (fmt2_reads x Fx) as (n & A & C & _). destruct (fmt2 x) as [|c y]; [congruence|]. inversion A as [|? ? Hc _]; subst.
  rewrite skip_blank by blanks. cbn [app]. unfold regular in Hc. apply andb_true_iff in Hc. destruct Hc as (H1 & H2).
  rewrite skip_start by (destruct (wsp c); [discriminate|reflexivity]). eexists c, _. split; [reflexivity|]. intros ->. discriminate.
Qed.
Lemma number_atou : forall w, number w = None -> atou w = None.
Proof.
  intros w H. destruct (atou w) as [n|] eqn:E; [|reflexivity]. exfalso. unfold atou in E. destruct w as [|c t]; [discriminate|].
  destruct (forallb is_digit (c :: t)) eqn:D; [|discriminate]. cbn [forallb] in D. apply andb_true_iff in D. destruct D as (D & D2). unfold is_digit in D.
  cbn [number] in H. replace (c =? 45) with false in H by lia. replace (c =? 43) with false in H by lia. unfold atou in H. cbn [forallb] in H.
  unfold is_digit at 1 in H. rewrite D, D2 in H. discriminate.
Qed.
Lemma fmt_word : forall x, finite x -> reg_word (fmt2 x) /\ fmt2 x <> [] /\ atou (fmt2 x) = None /\ exists c t, fmt2 x = c :: t /\ c <> 82 /\ wsp c = false.
Proof.
  intros x Fx. destruct (fmt2_reads x Fx) as (n & A & C & D & E & _). split; [exact A|]. split; [exact C|]. split; [apply number_atou; exact D|].
  destruct (fmt2 x) as [|c t]; [congruence|]. exists c, t. split; [reflexivity|]. inversion A as [|? ? Hc _]; subst. split.
  - intros ->. discriminate E.
  - unfold regular in Hc. destruct (wsp c); [discriminate|reflexivity].
Qed.
Lemma ref_none3 : forall w n r, blank w -> reg_word n -> n <> [] -> atou n = None -> stops r -> ref_tail (w ++ n ++ r) = None.
Proof.
  intros w n r Hw Hn Ne An Hr. unfold ref_tail. rewrite skip_blank by auto.
  assert (SK : skip (n ++ r) = n ++ r).
  { destruct n as [|x y]; [congruence|]. inversion Hn as [|? ? Hx _]; subst. cbn [app]. apply skip_start. unfold regular in Hx. destruct (wsp x); [discriminate|reflexivity]. }
  rewrite SK, span_word, An by auto. reflexivity.
Qed.
Lemma box_read : forall w h r, finite w -> finite h -> reads (B" [ 0 0 " ++ fmt2 w ++ B" " ++ fmt2 h ++ B" ]" ++ r) (box_of w h) r.
Proof.
  intros w h r Fw Fh. change (B" [ 0 0 " ++ ?x) with (B" " ++ B"[" ++ B" " ++ itoa 0 ++ B" " ++ itoa 0 ++ B" " ++ x).
  apply reads_arr; [blanks|]. destruct (fmt_word w Fw) as (W1 & W2 & W3 & c & y & E & W4 & W5).
  eapply items_step with (c := 48); [reflexivity|discriminate|apply reads_int; [blanks|reflexivity|]|].
  { rewrite E. apply (ref_none2 (B" ") (itoa 0) (B" ") c (y ++ B" " ++ fmt2 h ++ B" ]" ++ r)); [blanks|apply itoa_reg|blanks|reflexivity|apply itoa_nn|exact W5|exact W4]. }
  eapply items_step with (c := 48); [reflexivity|discriminate|apply reads_int; [blanks|reflexivity|]|].
  { apply ref_none3; [blanks|exact W1|exact W2|exact W3|reflexivity]. }
  destruct (skip_fmt w (B" " ++ fmt2 h ++ B" ]" ++ r) Fw) as (c1 & y1 & S1 & N1).
  eapply items_step; [exact S1|exact N1|apply reads_fmt; [blanks|exact Fw|reflexivity]|].
  destruct (skip_fmt h (B" ]" ++ r) Fh) as (c2 & y2 & S2 & N2).
  eapply items_step; [exact S2|exact N2|apply reads_fmt; [blanks|exact Fh|reflexivity]|].
  apply (items_end (B" ") r). blanks.
Qed.

Definition root_dict (w h : f64) (n : Z) (l : list Z) : list (bytes * pv) :=
  [(B"Type", PName (B"Pages")); (B"MediaBox", box_of w h); (B"Count", PInt n); (B"Kids", PArr (map (fun k => PRef (k + 1) 0) l))].
Lemma root_read : forall w h n l r, finite w -> finite h -> exists r', reads (pages_build w h n (flat_map g_ref l) ++ r) (PDict (root_dict w h n l)) r' /\ r' = [10] ++ r.
Proof.
  intros w h n l r Fw Fh. exists ([10] ++ r). split; [|reflexivity]. unfold pages_build, media_box. rewrite <- !app_assoc.
  apply (reads_dict []); [apply Forall_nil|].
  match goal with |- reads_entries ([10] ++ B"  /Type /Pages" ++ ?x) _ _ => change (reads_entries ([10; 32; 32] ++ 47 :: B"Type" ++ B" /Pages" ++ x) (root_dict w h n l) ([10] ++ r)) end.
  eapply entries_step; [blanks|regw|reflexivity|apply (reads_name (B" ") (B"Pages")); [blanks|regw|reflexivity]|].
  match goal with |- reads_entries ([10] ++ B"  " ++ B"/MediaBox [ 0 0 " ++ ?x) ?l _ => change (reads_entries ([10; 32; 32] ++ 47 :: B"MediaBox" ++ B" [ 0 0 " ++ x) l ([10] ++ r)) end.
  eapply entries_step; [blanks|regw|reflexivity|apply box_read; assumption|].
  match goal with |- reads_entries ([10] ++ B"  /Count " ++ ?x) ?l _ => change (reads_entries ([10; 32; 32] ++ 47 :: B"Count" ++ B" " ++ x) l ([10] ++ r)) end.
  eapply entries_step; [blanks|regw|reflexivity|apply reads_int; [blanks|reflexivity|]|].
  { match goal with |- ref_tail ([10] ++ B"  /Kids [ " ++ ?x) = None => change (ref_tail ([10; 32; 32] ++ 47 :: B"Kids [ " ++ x) = None) end.
    apply ref_none; [blanks|reflexivity|reflexivity]. }
  match goal with |- reads_entries ([10] ++ B"  /Kids [ " ++ ?x) ?l _ => change (reads_entries ([10; 32; 32] ++ 47 :: B"Kids" ++ B" " ++ B"[" ++ B" " ++ x) l ([10] ++ r)) end.
  eapply entries_step; [blanks|regw|reflexivity|apply reads_arr; [blanks|]|].
  - apply kids_read. blanks.
  - apply entries_end. blanks.
Qed.

Lemma page_read : forall c opt r, finite (fst opt) -> finite (snd opt) ->
  reads (page_build (g_ref c) (B"3 0 R") opt ++ r)
    (PDict ([(B"Type", PName (B"Page")); (B"Parent", PRef 2 0); (B"Resources", PRef 3 0); (B"Contents", PRef (c + 1) 0)]
            ++ if opt_empty opt then [] else [(B"MediaBox", box_of (fst opt) (snd opt))])) ([10] ++ r).
Proof.
  intros c opt r Fw Fh. unfold page_build. rewrite <- !app_assoc. apply (reads_dict []); [apply Forall_nil|].
  match goal with |- reads_entries ([10] ++ B"  /Type /Page" ++ ?x) ?l _ => change (reads_entries ([10; 32; 32] ++ 47 :: B"Type" ++ B" /Page" ++ x) l ([10] ++ r)) end.
  eapply entries_step; [blanks|regw|reflexivity|apply (reads_name (B" ") (B"Page")); [blanks|regw|reflexivity]|].
  match goal with |- reads_entries ([10] ++ B"  /Parent 2 0 R" ++ ?x) ?l _ => change (reads_entries ([10; 32; 32] ++ 47 :: B"Parent" ++ B" " ++ itoa 2 ++ B" " ++ itoa 0 ++ B" R" ++ x) l ([10] ++ r)) end.
  eapply entries_step; [blanks|regw|reflexivity|apply reads_ref; [blanks|lia|reflexivity]|].
  match goal with |- reads_entries ([10] ++ B"  /Resources " ++ B"3 0 R" ++ ?x) ?l _ => change (reads_entries ([10; 32; 32] ++ 47 :: B"Resources" ++ B" " ++ itoa 3 ++ B" " ++ itoa 0 ++ B" R" ++ x) l ([10] ++ r)) end.
  eapply entries_step; [blanks|regw|reflexivity|apply reads_ref; [blanks|lia|reflexivity]|].
  rewrite g_ref_shape.
  match goal with |- reads_entries ([10] ++ B"  /Contents " ++ B" " ++ ?x) ?l _ => change (reads_entries ([10; 32; 32] ++ 47 :: B"Contents" ++ B"  " ++ x) l ([10] ++ r)) end.
  eapply entries_step; [blanks|regw|reflexivity|apply reads_ref; [blanks|lia|reflexivity]|].
  destruct (opt_empty opt).
  - cbn [app]. apply (entries_end [32; 10]). blanks.
  - unfold media_box. rewrite <- !app_assoc.
    match goal with |- reads_entries (32 :: [10] ++ B" " ++ B"/MediaBox [ 0 0 " ++ ?x) ?l _ => change (reads_entries ([32; 10; 32] ++ 47 :: B"MediaBox" ++ B" [ 0 0 " ++ x) l ([10] ++ r)) end.
    eapply entries_step; [blanks|regw|reflexivity|apply box_read; assumption|]. apply entries_end. blanks.
Qed.
Lemma catalog_read : forall r, reads (catalog_build ++ r) (PDict [(B"Type", PName (B"Catalog")); (B"Pages", PRef 2 0)]) ([10] ++ r).
Proof. intros r. exists 8%nat. reflexivity. Qed.

(** ** C62 *)

Lemma empty_zero : forall o, finite (fst o) -> finite (snd o) -> opt_empty o = zero (fst o) && zero (snd o).
Proof.
  intros (a, c) Fa Fc. unfold opt_empty. cbn [fst snd] in *. change (fofz 0) with (S754_zero false).
  assert (X : forall x, finite x -> feq x (S754_zero false) = zero x). { intros x Fx. destruct x as [s|s| |s m e]; try contradiction; [reflexivity|]. destruct s; reflexivity. }
  rewrite !X by assumption. apply andb_comm.
Qed.

Lemma draws_some : forall w g0 t g x, runs w g0 t g -> In x t -> draws_something x -> forall cs, effect w x cs <> None.
Proof.
  intros w g0 t g x R H (E & D) cs. induction R as [|t g c g' e R IH S]; [contradiction|]. apply in_app_iff in H. destruct H as [H|[<-|[]]]; [auto|].
  clear IH R. cbn [fst snd] in *. subst e. unfold effect. destruct c; try contradiction; try discriminate; cbn [gstep] in S.
  - unfold do_text, text_call in S. unfold text_effect. destruct (add_text_chars g text) as [[[g1 n] [e1|]]| | |]; try discriminate.
  - unfold g_cell, text_call in S. unfold text_effect. destruct (add_text_chars g text) as [[[g1 n] [e1|]]| | |]; try discriminate.
  - unfold g_cell_option, text_call in S. unfold text_effect. destruct (add_text_chars g text) as [[[g1 n] [e1|]]| | |]; try discriminate.
Qed.
Lemma cstep_some : forall w l oc, oc <> None -> fold_left (cstep w) l oc <> None.
Proof. intros w. induction l as [|x l IH]; intros oc H; [exact H|]. cbn [fold_left]. apply IH. unfold cstep. destruct (effect w x (held oc)); [discriminate|exact H]. Qed.
Lemma made_some : forall w l, Exists (fun x => forall cs, effect w x cs <> None) l -> forall oc, exists cs, fold_left (cstep w) l oc = Some cs.
Proof.
  intros w l H. induction H as [x l H|x l H IH]; intros oc; cbn [fold_left]; [|apply IH].
  assert (cstep w oc x <> None). { unfold cstep. destruct (effect w x (held oc)) eqn:E; [discriminate|]. destruct (H (held oc) E). }
  pose proof (cstep_some w l _ H0). destruct (fold_left (cstep w) l (cstep w oc x)); [eauto|congruence].
Qed.
Lemma pages_in : forall t p, In p (pages_of t) -> forall x, In x (snd p) -> In x t.
Proof.
  intros t. apply (rev_ind (fun t => forall p, In p (pages_of t) -> forall x, In x (snd p) -> In x t)); [intros p []|].
  intros y l IH p Hp x Hx. rewrite pages_snoc in Hp. apply in_app_iff.
  assert (C : In p (pages_of l) \/ p = (match snd (fst y) with AddPage o => (o, []) | _ => p end) /\ snd p = [] \/ exists q, In q (pages_of l) /\ p = (fst q, snd q ++ [y])).
  { unfold page_step in Hp.
    assert (X : In p (on_last (fun p => (fst p, snd p ++ [y])) (pages_of l)) -> In p (pages_of l) \/ exists q, In q (pages_of l) /\ p = (fst q, snd q ++ [y])).
    { destruct (last_cases _ (pages_of l)) as [->|(a & q & ->)]; [intros []|]. rewrite on_last_snoc. intros H. apply in_app_iff in H. destruct H as [H|[<-|[]]].
      - left. apply in_app_iff. auto.
      - right. exists q. split; [apply in_app_iff; right; left; reflexivity|reflexivity]. }
    destruct (snd (fst y)) eqn:Ey; try (apply X in Hp; tauto). apply in_app_iff in Hp. destruct Hp as [Hp|[<-|[]]]; [left; exact Hp|].
    right. left. split; reflexivity. }
  destruct C as [C|[(_ & C)|(q & C & ->)]].
  - left. eapply IH; eauto.
  - rewrite C in Hx. contradiction.
  - cbn [snd] in Hx. apply in_app_iff in Hx. destruct Hx as [Hx|Hx]; [left; eapply IH; eauto|right; exact Hx].
Qed.

Lemma nth_forall2 : forall A C (P : A -> C -> Prop) l l', Forall2 P l l' -> forall i y, nth_error l' i = Some y -> exists x, nth_error l i = Some x /\ P x y.
Proof. induction 1 as [|x y l l' H _ IH]; intros i z E; [destruct i; discriminate|]. destruct i as [|i]; cbn [nth_error] in *; [injection E as <-; eauto|]. apply IH. exact E. Qed.

Lemma closes_here : forall t, closes ([10] ++ B"endobj" ++ [10] ++ t).
Proof. intros t. exists t. reflexivity. Qed.

Lemma linked_at : forall ps k o, o_kind (linked 1 ps k o) = match o_kind o with
    | KPages c kd => if Z.of_nat k =? 1 then KPages (c + Z.of_nat (List.length ps)) (kd ++ kid_refs ps) else KPages c kd
    | KPage c r opt => KPage (c ++ refs_at ps (Z.of_nat k)) r opt
    | kd => kd end.
Proof. reflexivity. Qed.

Definition drawn_page (p : f64 * f64 * trace) : Prop := finite (fst (fst p)) /\ finite (snd (fst p)) /\ Exists draws_something (snd p).

Theorem doc_pages : forall w rnd cfg t F, document w rnd cfg t F -> blen F < 10 ^ 10 -> finite (cfg_w cfg) -> finite (cfg_h cfg) ->
  Forall drawn_page (pages_of t) ->
  exists g0 g kids, g_start rnd cfg gp0 = Ok g0 /\ runs w g0 t g /\ root_is F (cfg_w cfg, cfg_h cfg) kids /\ NoDup kids /\
    Forall2 (fun k p => exists c cs b kd l l' r, page_is F k (cfg_w cfg, cfg_h cfg) (asked cfg (fst p)) c /\ fold_left (cstep w) (snd p) None = Some cs /\
      build1 w g l c (KContent [] cs) = Ok (b, kd, l') /\ object_text F c (b ++ B"endobj" ++ [10] ++ r)) kids (pages_of t).
Proof.
  intros w rnd cfg t F D Hs Fw Fh HP. destruct (doc_facts _ _ _ _ _ D) as (g0 & g & bs & info & S & R & V & Ei & EF & L & Ep & Es & K).
  destruct (iv_objs _ _ _ V) as (fs & xs & rest & Eo & Ri). pose proof (iv_scan _ _ _ V) as Sc. pose proof (iv_fresh _ _ _ V) as Fr. destruct (iv_cfg _ _ _ V) as (Ec & _).
  assert (OT : forall k b, nth_error bs k = Some b -> exists r, object_text F (1 + Z.of_nat k) (b ++ B"endobj" ++ [10] ++ r)).
  { intros k b Eb. rewrite EF in *. apply file_object; assumption. }
  exists g0, g, (map (fun q => fst (fst q) + 1) (scan (g_objs g))). split; [exact S|]. split; [exact R|].
  assert (Lp : List.length (scan (g_objs g)) = List.length (pages_of t)). { rewrite (forall2_len _ _ _ _ _ Sc), map_length. reflexivity. }
  split; [|split].
  - exists (box_of (cfg_w cfg) (cfg_h cfg)). split; [|split].
    + destruct (K 0%nat (new_obj KCatalog)) as (lk & b & kd & lk' & B1 & N1 & _). { unfold with_enc. rewrite Eo. reflexivity. }
      cbn [linked o_kind new_obj build1] in B1. injection B1 as <- _ _. destruct (OT _ _ N1) as (r & T). exists (catalog_build ++ B"endobj" ++ [10] ++ r), ([10] ++ B"endobj" ++ [10] ++ r).
      split; [exact T|]. split; [apply catalog_read|apply closes_here].
    + destruct (K 1%nat (new_obj (KPages 0 []))) as (lk & b & kd & lk' & B1 & N1 & _). { unfold with_enc. rewrite Eo. reflexivity. }
      rewrite linked_at in B1. cbn [o_kind new_obj] in B1. change (Z.of_nat 1 =? 1) with true in B1. cbv iota in B1. cbn [build1] in B1. injection B1 as <- _ _.
      destruct (OT _ _ N1) as (r & T). rewrite Ec in T.
      replace (kid_refs (scan (g_objs g))) with (flat_map g_ref (map (fun q => fst (fst q)) (scan (g_objs g)))) in T.
      2:{ unfold kid_refs. rewrite !flat_map_concat_map, map_map. reflexivity. }
      eexists _, _. split; [exact T|]. split; [|apply closes_here]. rewrite map_length, map_map.
      match goal with |- reads (pages_build ?a ?c ?n (flat_map g_ref ?l) ++ ?r) _ _ => destruct (root_read a c n l r Fw Fh) as (r' & RR & ->) end.
      unfold root_dict in RR. rewrite map_map in RR. exact RR.
    + apply box_is; assumption.
  - pose proof (scan_nodup (g_objs g)) as N. rewrite <- (map_map (fun q => fst (fst q)) (fun z => z + 1)). apply FinFun.Injective_map_NoDup; [|exact N].
    intros a b. lia.
  - pose proof (scan_placed (g_objs g)) as P. pose proof (scan_nodup (g_objs g)) as ND.
    assert (RA : forall q, In q (scan (g_objs g)) -> refs_at (scan (g_objs g)) (fst (fst q)) = flat_map (fun c => g_ref (fst c)) (snd q)).
    { intros [[i opt] cs] H. cbn [fst snd]. eapply refs_at_in; eauto. }
    assert (HD : forall p, In p (pages_of t) -> exists cs, fold_left (cstep w) (snd p) None = Some cs).
    { intros p Hp. apply made_some. rewrite Forall_forall in HP. destruct (HP p Hp) as (_ & _ & X). apply Exists_exists in X. destruct X as (x & X1 & X2).
      apply Exists_exists. exists x. split; [exact X1|]. eapply draws_some; eauto. eapply pages_in; eauto. }
    assert (GEN : forall sc pl, Forall2 here sc (map (made w) pl) -> (forall q, In q sc -> In q (scan (g_objs g))) -> (forall p, In p pl -> In p (pages_of t)) ->
      Forall2 (fun k p => exists c cs b kd l l' r, page_is F k (cfg_w cfg, cfg_h cfg) (asked cfg (fst p)) c /\ fold_left (cstep w) (snd p) None = Some cs /\
        build1 w g l c (KContent [] cs) = Ok (b, kd, l') /\ object_text F c (b ++ B"endobj" ++ [10] ++ r)) (map (fun q => fst (fst q) + 1) sc) pl).
    { induction sc as [|q sc IH]; intros pl H Hq Hpl; destruct pl as [|p pl]; inversion H as [|? ? ? ? H1 H2]; subst; [constructor|]. cbn [map]. constructor.
      2:{ apply IH; [exact H2| |]; intros; [apply Hq|apply Hpl]; right; assumption. }
      clear IH H2. destruct (HD p (Hpl p (or_introl eq_refl))) as (cs & Ecs). destruct H1 as (H1 & H3). unfold made in H3, H1. cbn [fst snd] in H1, H3. rewrite Ecs in H3. destruct H3 as (i & H3).
      specialize (RA q (Hq q (or_introl eq_refl))). rewrite H3 in RA. cbn [flat_map fst] in RA. rewrite app_nil_r in RA.
      rewrite Forall_forall in P. destruct (P q (Hq q (or_introl eq_refl))) as ((o & c & r & P1 & P2 & P3) & P4). rewrite H3 in P4.
      inversion P4 as [|? ? (o2 & s2 & Q1 & Q2 & Q3) _]; subst. cbn [fst snd] in Q1, Q2, Q3.
      rewrite Forall_forall in HP. destruct (HP p (Hpl p (or_introl eq_refl))) as (Fa & Fb & _).
      rewrite Forall_forall in Fr. destruct (Fr o (nth_error_In _ _ P2)) as (_ & Fo). rewrite P3 in Fo. destruct Fo as (-> & ->).
      destruct (Fr o2 (nth_error_In _ _ Q2)) as (_ & Fo2). rewrite Q3 in Fo2. subst s2.
      assert (WE : forall j x, nth_error (g_objs g) j = Some x -> nth_error (with_enc g) j = Some x).
      { intros j x E. unfold with_enc. rewrite nth_error_app1; [exact E|]. apply nth_error_Some. congruence. }
      destruct (K _ _ (WE _ _ P2)) as (lk & b & kd & lk' & B1 & N1 & _). rewrite linked_at, P3, Z2Nat.id in B1 by exact P1. cbn [build1 app] in B1. injection B1 as <- _ _.
      rewrite RA, H1 in N1. destruct (OT _ _ N1) as (r1 & T1). rewrite Z2Nat.id in T1 by exact P1.
      destruct (K _ _ (WE _ _ Q2)) as (lk2 & b2 & kd2 & lk2' & B2 & N2 & _). rewrite linked_at, Q3, Z2Nat.id in B2 by exact Q1.
      destruct (OT _ _ N2) as (r2 & T2). rewrite Z2Nat.id in T2 by exact Q1.
      exists (i + 1), cs, b2, kd2, lk2, lk2', r2. replace (fst (fst q) + 1) with (1 + fst (fst q)) by lia. replace (i + 1) with (1 + i) by lia.
      split; [|split; [exact Ecs|split; [exact B2|exact T2]]].
      assert (Fn : finite (fst (norm (fst p))) /\ finite (snd (norm (fst p)))). { unfold norm. destruct (opt_empty (fst p)); [split; exact Logic.I|split; assumption]. }
      destruct Fn as (Fn1 & Fn2). pose proof (page_read i (norm (fst p)) (B"endobj" ++ [10] ++ r1) Fn1 Fn2) as RD.
      eexists. split; [eexists _, _; split; [exact T1|]; split; [exact RD|apply closes_here]|].
      split; [reflexivity|]. split; [reflexivity|]. split; [reflexivity|].
      split; [replace (1 + i) with (i + 1) by lia; reflexivity|].
      pose proof (empty_zero (fst p) Fa Fb) as EZ. unfold asked. unfold norm in *. destruct (opt_empty (fst p)) eqn:EE; match goal with |- context [if ?c && ?d then _ else fst p] => change (c && d) with (zero (fst (fst p)) && zero (snd (fst p))) end; rewrite <- EZ.
      - reflexivity.
      - rewrite EE. change (is_box (box_of (fst (fst p)) (snd (fst p))) (fst p)). pose proof (box_is (fst (fst p)) (snd (fst p)) Fa Fb) as BI. destruct (fst p) as (pw, ph). exact BI. }
    apply GEN; auto.
Qed.
