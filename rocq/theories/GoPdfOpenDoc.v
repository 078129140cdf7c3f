(** Opening a document of the writer GoPdf with pdft: pages and sizes. *)
From Coq Require Import String List ZArith Lia Bool FinFun.
From Coq.Floats Require Import SpecFloat.
From Verif Require Import Base BaseProofs Output OutputSpec PdfSyntax PdfSyntaxProofs Float64 TextSpec PdfData Parse ParseSpec ParseFinal GoPdf GoPdfSpec GoPdfDocSpec GoPdfFile GoPdfRun GoPdfPages GoPdfDoc GoPdfTree GoPdfMain GoPdfOpenSpec GoPdfOpenInfo GoPdfOpen GoPdfOpenDict GoPdfOpenPages.
Open Scope Z_scope.
Open Scope list_scope.

Lemma empty_own : forall o (t : trace), opt_empty (norm o) = negb (own_size (o, t)).
Proof.
  intros o t. unfold own_size. cbn [fst]. rewrite negb_involutive.
  assert (X : forall x, feq x (S754_zero false) = zero x) by (intros x; destruct x as [s|s| |s m e]; [reflexivity|destruct s; reflexivity|reflexivity|destruct s; reflexivity]).
  assert (E : opt_empty o = zero (fst o) && zero (snd o)) by (unfold opt_empty; change (fofz 0) with (S754_zero false); rewrite !X; apply andb_comm).
  unfold norm. destruct (opt_empty o) eqn:Eo; [rewrite <- E; reflexivity|]. rewrite Eo. exact E.
Qed.
Lemma norm_own : forall p, own_size p = true -> norm (fst p) = fst p.
Proof. intros (o, t) H. pose proof (empty_own o t) as E. rewrite H in E. unfold norm in *. cbn [fst]. destruct (opt_empty o); [discriminate E|reflexivity]. Qed.

Lemma texts_len : forall l id, Z.of_nat (List.length l) <= blen (texts id l).
Proof.
  induction l as [|b l IH]; intros id; [cbn; lia|]. cbn [texts List.length]. rewrite blen_app. unfold wrapped. rewrite !blen_app. change (blen (B" 0 obj")) with 6.
  pose proof (blen_nonneg (itoa id)). pose proof (blen_nonneg [10]). pose proof (blen_nonneg b). pose proof (blen_nonneg (B"endobj")). pose proof (blen_nonneg [10; 10]). specialize (IH (id + 1)). lia.
Qed.
Lemma file_len : forall bs enc info, Z.of_nat (List.length bs) <= blen (file bs enc info).
Proof.
  intros bs enc info. unfold file. rewrite !blen_app. pose proof (texts_len bs 1). pose proof (blen_nonneg pdf_header).
  match goal with |- _ <= _ + (_ + blen ?x) => pose proof (blen_nonneg x) | |- _ <= _ + _ + blen ?x => pose proof (blen_nonneg x) end. lia.
Qed.
Lemma real_of : forall t, real_infos t -> real (info_of t).
Proof. intros t H. unfold real. destruct (info_of t) as [i|] eqn:E; [apply H; exact E|exact Logic.I]. Qed.

(** What the bodies of a document are. *)
Lemma doc_bodies : forall w rnd cfg t F, document w rnd cfg t F -> exists bs enc l,
  F = file bs enc (info_of t) /\ (forall e, enc = Some e -> 0 <= e) /\
  nth_error bs 0 = Some catalog_build /\ nth_error bs 1 = Some (pages_build (cfg_w cfg) (cfg_h cfg) (Z.of_nat (List.length l)) (flat_map g_ref l)) /\
  Forall2 (fun i p => page_body bs i (norm (fst p)) /\
    (drawn_page p -> exists c, nth_error bs (Z.to_nat i) = Some (page_build (g_ref c) (B"3 0 R") (norm (fst p))))) l (pages_of t) /\ NoDup l.
Proof.
  intros w rnd cfg t F D. destruct (doc_facts _ _ _ _ _ D) as (g0 & g & bs & info & S & R & V & Ei & EF & L & Ep & Es & K).
  destruct (iv_objs _ _ _ V) as (fs & xs & rest & Eo & Ri). pose proof (iv_scan _ _ _ V) as Sc. pose proof (iv_fresh _ _ _ V) as Fr. destruct (iv_cfg _ _ _ V) as (Ec & _).
  destruct (kept_run _ _ _ _ _ _ S R) as (_ & Ki). rewrite Ki in Ei. subst info.
  exists bs, (if cfg_use cfg then Some (enc_of (with_enc g) 0 (g_enc g)) else None), (map (fun q => fst (fst q)) (scan (g_objs g))). split; [exact EF|]. split.
  { intros e Ee. destruct (cfg_use cfg) eqn:Eu; [|discriminate Ee]. destruct (Ep eq_refl) as (p & Hp). destruct (enc_id _ _ _ _ V Eu Hp) as (_ & E). rewrite E in Ee. assert (e = 1 + Z.of_nat (List.length (g_objs g))) by congruence. lia. }
  split; [|split; [|split]].
  - destruct (K 0%nat (new_obj KCatalog)) as (lk & b & kd & lk' & B1 & N1 & _). { unfold with_enc. rewrite Eo. reflexivity. }
    cbn [linked o_kind new_obj build1] in B1. injection B1 as <- _ _. exact N1.
  - destruct (K 1%nat (new_obj (KPages 0 []))) as (lk & b & kd & lk' & B1 & N1 & _). { unfold with_enc. rewrite Eo. reflexivity. }
    rewrite linked_at in B1. cbn [o_kind new_obj] in B1. change (Z.of_nat 1 =? 1) with true in B1. cbv iota in B1. cbn [build1] in B1. injection B1 as <- _ _.
    rewrite Ec in N1. replace (kid_refs (scan (g_objs g))) with (flat_map g_ref (map (fun q => fst (fst q)) (scan (g_objs g)))) in N1.
    2:{ unfold kid_refs. rewrite !flat_map_concat_map, map_map. reflexivity. }
    rewrite map_length. exact N1.
  - pose proof (scan_placed (g_objs g)) as P. pose proof (scan_nodup (g_objs g)) as ND.
    assert (RA : forall q, In q (scan (g_objs g)) -> refs_at (scan (g_objs g)) (fst (fst q)) = flat_map (fun c => g_ref (fst c)) (snd q)).
    { intros [[i opt] cs] H. cbn [fst snd]. eapply refs_at_in; eauto. }
    assert (GEN : forall sc pl, Forall2 here sc (map (made w) pl) -> (forall q, In q sc -> In q (scan (g_objs g))) -> (forall p, In p pl -> In p (pages_of t)) ->
      Forall2 (fun i p => page_body bs i (norm (fst p)) /\ (drawn_page p -> exists c, nth_error bs (Z.to_nat i) = Some (page_build (g_ref c) (B"3 0 R") (norm (fst p)))))
        (map (fun q => fst (fst q)) sc) pl).
    { induction sc as [|q sc IH]; intros pl H Hq Hpl; destruct pl as [|p pl]; inversion H as [|? ? ? ? H1 H2]; subst; [constructor|]. cbn [map]. constructor.
      2:{ apply IH; [exact H2| |]; intros; [apply Hq|apply Hpl]; right; assumption. }
      clear IH H2. destruct H1 as (H1 & H3). unfold made in H3, H1. cbn [fst snd] in H1, H3.
      assert (C : exists c, flat_map (fun c => g_ref (fst c)) (snd q) = flat_map g_ref (one c) /\ (drawn_page p -> exists i, c = Some i)).
      { destruct (fold_left (cstep w) (snd p) None) as [cs|] eqn:Ef; [destruct H3 as (i & ->); exists (Some i)|rewrite H3; exists None]; (split; [reflexivity|]); [eauto|].
        intros (_ & _ & X). exfalso. destruct (made_some w (snd p)) with (oc := @None (list gcache)) as (cs & E); [|congruence].
        apply Exists_exists in X. destruct X as (x & X1 & X2). apply Exists_exists. exists x. split; [exact X1|]. eapply draws_some; eauto. eapply pages_in; eauto. apply Hpl. left. reflexivity. }
      destruct C as (c & C & Cd). specialize (RA q (Hq q (or_introl eq_refl))). rewrite C in RA.
      rewrite Forall_forall in P. destruct (P q (Hq q (or_introl eq_refl))) as ((o & c' & r & P1 & P2 & P3) & _).
      rewrite Forall_forall in Fr. destruct (Fr o (nth_error_In _ _ P2)) as (_ & Fo). rewrite P3 in Fo. destruct Fo as (-> & ->).
      assert (WE : nth_error (with_enc g) (Z.to_nat (fst (fst q))) = Some o).
      { unfold with_enc. rewrite nth_error_app1; [exact P2|]. apply nth_error_Some. congruence. }
      destruct (K _ _ WE) as (lk & b & kd & lk' & B1 & N1 & _). rewrite linked_at, P3, Z2Nat.id in B1 by exact P1. cbn [build1 app] in B1. injection B1 as <- _ _.
      rewrite RA, H1 in N1. split; [split; [exact P1|]; exists c; exact N1|]. intros Hd. destruct (Cd Hd) as (i & ->). exists i. cbn [one flat_map] in N1. rewrite app_nil_r in N1. exact N1. }
    apply GEN; auto.
  - exact (scan_nodup (g_objs g)).
Qed.

Lemma parse_doc : forall float f bs enc info w h n l ops, let F := file bs enc info in blen F < 10 ^ 10 -> match enc with Some e => 0 <= e | None => True end -> real info ->
  Forall (no_occ (B"endobj")) bs -> Forall (no_occ (B"xref")) bs -> Forall (no_occ (B"trailer")) bs ->
  nth_error bs 0 = Some catalog_build -> nth_error bs 1 = Some (pages_build w h n (flat_map g_ref l)) -> Forall2 (page_body bs) l ops ->
  getPageObjIDs (S (S f)) (mkPdf 1 (opened bs)) = Ok (map (fun i => i + 1) l) /\
  exists xs, PDFParse float (S (S f)) F nodoc = (let '(s, r3) := page_sizes float (opened bs) 0 (map (fun i => i + 1) l) [] in (mkDoc (mkPdf 1 (opened bs)) xs s, r3)).
Proof.
  intros float f bs enc info w h n l ops F Hs He Hi O1 O2 O3 B0 B1 HP.
  assert (Hl : Z.of_nat (List.length bs) < 2 ^ 62) by (pose proof (file_len bs enc info); fold F in H; lia).
  pose proof (opens_tree bs w h n l ops Hl B0 B1 HP f) as T. split; [exact T|].
  eexists. unfold PDFParse, nodoc. cbn [d_xrefs d_pdf d_sizes objs]. unfold F. rewrite reads_rows by assumption. cbv iota beta.
  rewrite reads_trailer by assumption. cbv iota beta. rewrite reads_objs by (assumption || reflexivity). cbv iota beta. cbn [root objs].
  rewrite setPages_ok by exact B0. rewrite T. cbv iota beta.
  destruct (page_sizes float (opened bs) 0 (map (fun i => i + 1) l) []) as (s, r3). reflexivity.
Qed.

Lemma no_words_in : forall bs enc info, blen (file bs enc info) < 10 ^ 10 -> (forall e, enc = Some e -> 0 <= e) -> no_words (file bs enc info) ->
  Forall (no_occ (B"endobj")) bs /\ Forall (no_occ (B"xref")) bs /\ Forall (no_occ (B"trailer")) bs.
Proof.
  intros bs enc info Hs He H. assert (He' : match enc with Some e => 0 <= e | None => True end) by (destruct enc; auto).
  assert (G : forall b, In b bs -> free_of (B"endobj") b /\ free_of (B"xref") b /\ free_of (B"trailer") b).
  { intros b Hb. apply In_nth_error in Hb. destruct Hb as (k & Hk). eapply H. apply file_body; eassumption. }
  split; [|split]; apply Forall_forall; intros b Hb; apply free_no_occ; apply G; exact Hb.
Qed.

Lemma sizes_fit : forall float, accepts float -> forall ps k, forallb own_size ps = true -> exists xs,
  Forall2 (read_size float) (map (fun p => norm (fst p)) ps) xs /\ sizes_are float k ps (counted k xs).
Proof.
  intros float ((z & Hz) & A). induction ps as [|p ps IH]; intros k H; [exists []; split; constructor|]. cbn [forallb] in H. apply andb_true_iff in H. destruct H as (H1 & H2).
  destruct (IH (k + 1) H2) as (xs & R & S). destruct (A (fst (fst p))) as (x & Ex). destruct (A (snd (fst p))) as (y & Ey). exists ([z; z; x; y] :: xs).
  cbn [map counted]. split; [constructor; [|exact R]|econstructor; eassumption]. split.
  - destruct p as (o, t'). cbn [fst]. rewrite (empty_own o t'), H1. reflexivity.
  - rewrite norm_own by exact H1. cbn [parse_all]. rewrite Hz, Ex, Ey. reflexivity.
Qed.
Lemma first_without : forall ps, forallb own_size ps = false -> exists a p b, ps = a ++ p :: b /\ forallb own_size a = true /\ own_size p = false.
Proof.
  induction ps as [|p ps IH]; intros H; [discriminate|]. cbn [forallb] in H. destruct (own_size p) eqn:E.
  - destruct (IH H) as (a & q & b' & -> & Ha & Hq). exists (p :: a), q, b'. split; [reflexivity|]. split; [cbn [forallb]; rewrite E; exact Ha|exact Hq].
  - exists [], p, ps. auto.
Qed.

Theorem opens_document : forall w rnd cfg t F float f, document w rnd cfg t F -> blen F < 10 ^ 10 -> real_infos t -> no_words F -> accepts float ->
  exists kids d, PDFParse float (S (S f)) F nodoc = (d, if forallb own_size (pages_of t) then Ok tt else Panic) /\
    root (d_pdf d) = 1 /\ all_objects F (objs (d_pdf d)) /\ getPageObjIDs (S (S f)) (d_pdf d) = Ok kids /\
    NoDup kids /\ List.length kids = List.length (pages_of t) /\ (finite (cfg_w cfg) -> finite (cfg_h cfg) -> root_is F (cfg_w cfg, cfg_h cfg) kids) /\
    Forall2 (fun k p => drawn_page p -> exists c, page_is F k (cfg_w cfg, cfg_h cfg) (asked cfg (fst p)) c) kids (pages_of t) /\
    (forallb own_size (pages_of t) = true -> sizes_are float 0 (pages_of t) (d_sizes d)).
Proof.
  intros w rnd cfg t F float f D Hs NI NW Ac. destruct (doc_bodies _ _ _ _ _ D) as (bs & enc & l & -> & He & B0 & B1 & HP & ND).
  apply real_of in NI. set (info := info_of t) in *. clearbody info. destruct (no_words_in bs enc info Hs He NW) as (O1 & O2 & O3). assert (He' : match enc with Some e => 0 <= e | None => True end) by (destruct enc; auto).
  assert (HQ : Forall2 (page_body bs) l (map (fun p => norm (fst p)) (pages_of t))).
  { clear -HP. induction HP as [|i p l ps (P & _) _ IH]; cbn [map]; constructor; assumption. }
  destruct (parse_doc float f bs enc info _ _ _ l _ Hs He' NI O1 O2 O3 B0 B1 HQ) as (T & xs & EP).
  assert (Hl : Z.of_nat (List.length bs) < 2 ^ 62) by (pose proof (file_len bs enc info); lia).
  assert (OT : forall k b, nth_error bs k = Some b -> exists r, object_text (file bs enc info) (1 + Z.of_nat k) (b ++ B"endobj" ++ [10] ++ r)) by (intros k b Eb; apply file_object; assumption).
  assert (REST : NoDup (map (fun i => i + 1) l) /\ List.length (map (fun i => i + 1) l) = List.length (pages_of t) /\
    (finite (cfg_w cfg) -> finite (cfg_h cfg) -> root_is (file bs enc info) (cfg_w cfg, cfg_h cfg) (map (fun i => i + 1) l)) /\
    Forall2 (fun k p => drawn_page p -> exists c, page_is (file bs enc info) k (cfg_w cfg, cfg_h cfg) (asked cfg (fst p)) c) (map (fun i => i + 1) l) (pages_of t)).
  { split; [apply FinFun.Injective_map_NoDup; [intros a c; lia|exact ND]|]. split; [rewrite map_length; apply (forall2_len _ _ _ _ _ HP)|]. split.
    - intros Fw Fh. exists (box_of (cfg_w cfg) (cfg_h cfg)). split; [|split; [|apply box_is; assumption]].
      + destruct (OT _ _ B0) as (r & Tx). exists (catalog_build ++ B"endobj" ++ [10] ++ r), ([10] ++ B"endobj" ++ [10] ++ r). split; [exact Tx|]. split; [apply catalog_read|apply closes_here].
      + destruct (OT _ _ B1) as (r & Tx). eexists _, _. split; [exact Tx|]. split; [|apply closes_here]. rewrite map_length, map_map.
        match goal with |- reads (pages_build ?a ?c ?n (flat_map g_ref ?l) ++ ?r) _ _ => destruct (root_read a c n l r Fw Fh) as (r' & RR & ->) end. exact RR.
    - clear -HP OT. induction HP as [|i p l ps ((Hi & _) & P) _ IH]; cbn [map]; [constructor|]. constructor; [|exact IH]. clear IH. intros Hd. destruct (P Hd) as (c & N1). destruct Hd as (Fa & Fb & _).
      destruct (OT _ _ N1) as (r1 & T1). rewrite Z2Nat.id in T1 by exact Hi. exists (c + 1). replace (i + 1) with (1 + i) by lia.
      assert (Fn : finite (fst (norm (fst p))) /\ finite (snd (norm (fst p)))). { unfold norm. destruct (opt_empty (fst p)); [split; exact Logic.I|split; assumption]. }
      destruct Fn as (Fn1 & Fn2). pose proof (page_read c (norm (fst p)) (B"endobj" ++ [10] ++ r1) Fn1 Fn2) as RD.
      eexists. split; [eexists _, _; split; [exact T1|]; split; [exact RD|apply closes_here]|].
      split; [reflexivity|]. split; [reflexivity|]. split; [reflexivity|]. split; [reflexivity|].
      pose proof (empty_zero (fst p) Fa Fb) as EZ. unfold asked. unfold norm in *. destruct (opt_empty (fst p)) eqn:EE; match goal with |- context [if ?c && ?d then _ else fst p] => change (c && d) with (zero (fst (fst p)) && zero (snd (fst p))) end; rewrite <- EZ.
      + reflexivity.
      + rewrite EE. change (is_box (box_of (fst (fst p)) (snd (fst p))) (fst p)). pose proof (box_is (fst (fst p)) (snd (fst p)) Fa Fb) as BI. destruct (fst p) as (pw, ph). exact BI. }
  exists (map (fun i => i + 1) l). destruct (forallb own_size (pages_of t)) eqn:Ea.
  - destruct (sizes_fit float Ac (pages_of t) 0 Ea) as (ss & R & Sz). pose proof (sizes_all bs Hl float l _ ss HQ R 0 [] []) as SA. rewrite app_nil_r in SA. rewrite SA in EP. cbn [page_sizes app] in EP.
    eexists. split; [exact EP|]. cbn [d_pdf d_sizes root objs]. split; [reflexivity|]. split; [apply opened_all; assumption|]. split; [exact T|].
    destruct REST as (R1 & R2 & R3 & R4). split; [exact R1|]. split; [exact R2|]. split; [exact R3|]. split; [exact R4|]. intros _. exact Sz.
  - destruct (first_without _ Ea) as (a & p & b' & Eps & Ha & Hp). rewrite Eps, map_app in HQ. cbn [map] in HQ.
    apply Forall2_app_inv_r in HQ. destruct HQ as (l1 & l2 & HQ1 & HQ2 & ->). inversion HQ2 as [|i ? l3 ? P1 _]; subst.
    destruct (sizes_fit float Ac a 0 Ha) as (ss & R & _). rewrite map_app in EP. cbn [map] in EP.
    rewrite (sizes_all bs Hl float l1 _ ss HQ1 R), (size_none bs Hl float i (norm (fst p))) in EP.
    2:{ exact P1. } 2:{ destruct p as (o, t'). cbn [fst]. rewrite (empty_own o t'), Hp. reflexivity. }
    eexists. split; [exact EP|]. cbn [d_pdf d_sizes root objs]. split; [reflexivity|]. split; [apply opened_all; assumption|]. split; [exact T|].
    destruct REST as (R1 & R2 & R3 & R4). split; [exact R1|]. split; [exact R2|]. split; [exact R3|]. split; [exact R4|]. discriminate.
Qed.
