(** Documents of the writer GoPdf are documents that pdft can draw on. *)
From Coq Require Import String List ZArith Lia Bool FinFun.
From Coq.Floats Require Import SpecFloat.
From Verif Require Import Base BaseProofs Output OutputSpec OutputProofs Props PropsRefs InjectNames PdfSyntax PdfSyntaxProofs Float64 TextSpec PdfData PagesSpec InjectSpec ContentSpec SaveSpec Parse ParseFinal GoPdf GoPdfSpec GoPdfDrawSpec GoPdfDocSpec GoPdfFile GoPdfRun GoPdfPages GoPdfDoc GoPdfTree GoPdfText GoPdfOut GoPdfMain GoPdfOpenSpec GoPdfOpenInfo GoPdfOpen GoPdfOpenDict GoPdfOpenPages GoPdfOpenDoc GoPdfReadyDict GoPdfReadyStream GoPdfReadyTree GoPdfReadyDoc GoPdfReadySpec GoPdfResSpec GoPdfEmbed SaveGoesSpec.
Open Scope Z_scope.
Open Scope list_scope.

Lemma body_len : forall bs enc info k b, nth_error bs k = Some b -> blen b <= blen (file bs enc info).
Proof.
  intros bs enc info k b H. assert (G : forall l id j, nth_error l j = Some b -> blen b <= blen (texts id l)).
  { induction l as [|x l IH]; intros id j E; [destruct j; discriminate E|]. cbn [texts]. rewrite blen_app. destruct j as [|j].
    - assert (x = b) by (cbn [nth_error] in E; congruence). subst x. unfold wrapped. rewrite !blen_app. pose proof (blen_nonneg (texts (id + 1) l)).
      pose proof (blen_nonneg (itoa id)). pose proof (blen_nonneg (B" 0 obj")). pose proof (blen_nonneg [10]). pose proof (blen_nonneg (B"endobj")). pose proof (blen_nonneg [10; 10]). lia.
    - cbn [nth_error] in E. apply (IH (id + 1)) in E. pose proof (blen_nonneg (wrapped id x)). lia. }
  unfold file. rewrite !blen_app. specialize (G bs 1 k H). pose proof (blen_nonneg pdf_header).
  match goal with |- _ <= _ + (_ + blen ?x) => pose proof (blen_nonneg x) | |- _ <= _ + _ + blen ?x => pose proof (blen_nonneg x) end. lia.
Qed.
Lemma xobj_len : forall xs l, Z.of_nat (List.length xs) <= blen (xobj_lines xs l).
Proof.
  induction xs as [|x xs IH]; intros l; [cbn; lia|]. cbn [xobj_lines List.length]. rewrite !blen_app. specialize (IH (l + 1)). change (blen (B"/I")) with 2.
  pose proof (blen_nonneg (itoa (l + 1))). pose proof (blen_nonneg (B" ")). pose proof (blen_nonneg (itoa (x + 1))). pose proof (blen_nonneg (B" 0 R")). pose proof (blen_nonneg [10]). lia.
Qed.
Lemma procset_len : forall fs xs l, Z.of_nat (List.length xs) <= blen (procset_build fs xs l).
Proof.
  intros fs xs l. pose proof (xobj_len xs l) as X. unfold procset_build. rewrite !blen_app.
  repeat match goal with |- _ <= ?a + ?b => let H := fresh in first [assert (H : Z.of_nat (List.length xs) <= a) by exact X|assert (H : 0 <= a) by apply blen_nonneg];
    match type of H with 0 <= _ => apply Z.le_trans with b; [|lia] | _ => apply Z.le_trans with a; [exact H|]; assert (0 <= b) by (rewrite <- ?blen_app; apply blen_nonneg); lia end end.
Qed.

(** The page in the file. *)
Lemma page_in : forall bs info cfg x p, blen (file bs None info) < 10 ^ 10 -> 3 <= fst x -> finite (fst (fst p)) -> finite (snd (fst p)) ->
  nth_error bs (Z.to_nat (fst x)) = Some (page_build (g_ref (snd x)) (B"3 0 R") (norm (fst (p : f64 * f64 * trace)))) ->
  GoPdfSpec.page_is (file bs None info) (fst x + 1) (cfg_w cfg, cfg_h cfg) (asked cfg (fst p)) (1 + snd x).
Proof.
  intros bs info cfg x p Hs H3 Fa Fb N1. destruct (file_object bs None info Hs _ _ N1) as (r1 & T1). rewrite Z2Nat.id in T1 by lia. replace (fst x + 1) with (1 + fst x) by lia.
  assert (Fn : finite (fst (norm (fst p))) /\ finite (snd (norm (fst p)))). { unfold norm. destruct (opt_empty (fst p)); [split; exact Logic.I|split; assumption]. }
  destruct Fn as (Fn1 & Fn2). pose proof (page_read (snd x) (norm (fst p)) (B"endobj" ++ [10] ++ r1) Fn1 Fn2) as RD.
  eexists. split; [eexists _, _; split; [exact T1|]; split; [exact RD|apply closes_here]|].
  split; [reflexivity|]. split; [reflexivity|]. split; [reflexivity|]. split; [replace (1 + snd x) with (snd x + 1) by lia; reflexivity|].
  pose proof (empty_zero (fst p) Fa Fb) as EZ. unfold asked. unfold norm in *. destruct (opt_empty (fst p)) eqn:EE; match goal with |- context [if ?c && ?d then _ else fst p] => change (c && d) with (zero (fst (fst p)) && zero (snd (fst p))) end; rewrite <- EZ.
  - reflexivity.
  - rewrite EE. change (is_box (box_of (fst (fst p)) (snd (fst p))) (fst p)). pose proof (box_is (fst (fst p)) (snd (fst p)) Fa Fb) as BI. destruct (fst p) as (pw, ph). exact BI.
Qed.

(** The names in the resources. *)
Lemma fonts_len : forall fs xs l, Z.of_nat (List.length fs) <= blen (procset_build fs xs l).
Proof.
  intros fs xs l. assert (X : Z.of_nat (List.length fs) <= blen (flat_map (fun r => B"      /F" ++ itoa (r_count r + 1) ++ B" " ++ itoa (r_obj r + 1) ++ B" 0 R" ++ [10]) fs)).
  { induction fs as [|r fs IH]; [cbn; lia|]. cbn [flat_map List.length]. rewrite !blen_app. change (blen (B"      /F")) with 8.
    pose proof (blen_nonneg (itoa (r_count r + 1))). pose proof (blen_nonneg (B" ")). pose proof (blen_nonneg (itoa (r_obj r + 1))). pose proof (blen_nonneg (B" 0 R")). pose proof (blen_nonneg [10]). lia. }
  unfold procset_build. rewrite !blen_app.
  repeat match goal with |- _ <= ?a + ?b => let H := fresh in first [assert (H : Z.of_nat (List.length fs) <= a) by exact X|assert (H : 0 <= a) by apply blen_nonneg];
    match type of H with 0 <= _ => apply Z.le_trans with b; [|lia] | _ => apply Z.le_trans with a; [exact H|]; assert (0 <= b) by (rewrite <- ?blen_app; apply blen_nonneg); lia end end.
Qed.
Lemma entry_named : forall es nl name n, map (fun e => (fst e, PRef (snd e) 0)) nl = es -> Forall (fun e => in_int (snd e)) nl -> lookup name es = Some (PRef n 0) -> font_named (props_of_names nl) name n.
Proof.
  intros es nl name n <-. induction nl as [|(k, m) nl IH]; intros Hi H; cbn [map lookup fst snd] in H; [discriminate|]. inversion Hi as [|? ? I1 I2]; subst.
  destruct (beqb k name) eqn:E.
  - apply beqb_eq in E. subst k. assert (m = n) by congruence. subst m. exists (refText n). split; [exists [], (props_of_names nl); split; [reflexivity|intros q []]|apply readObjID_ref; exact I1].
  - destruct (IH I2 H) as (v & (a & b & Ea & Hn) & R). exists v. split; [|exact R]. exists (mkProp k (refText m) :: a), b. split; [unfold props_of_names in *; cbn [map fst snd app]; rewrite Ea; reflexivity|].
    intros q [<-|Hq]; [|apply Hn; exact Hq]. cbn [pkey]. intros X. rewrite X in E. rewrite (proj2 (beqb_eq name name) eq_refl) in E. discriminate E.
Qed.
Lemma xobj_names : forall xs l, map (fun e => (fst e, PRef (snd e) 0)) (image_names xs l) = xobj_entries xs l.
Proof. induction xs as [|x xs IH]; intros l; [reflexivity|]. cbn [image_names map xobj_entries fst snd]. rewrite IH. reflexivity. Qed.
Lemma font_entries : forall fs, map (fun e => (fst e, PRef (snd e) 0)) (font_names fs) = map font_entry fs.
Proof. intros fs. unfold font_names. rewrite map_map. reflexivity. Qed.
Lemma resource_names : forall bs info fs xs, blen (file bs None info) < 10 ^ 10 -> nth_error bs 2 = Some (procset_build fs xs 0) ->
  Forall (fun e => in_int (snd e)) (font_names fs) -> Forall (fun e => in_int (snd e)) (image_names xs 0) ->
  (forall name n, resource (file bs None info) (B"Font") name n -> font_named (props_of_names (font_names fs)) name n) /\
  (forall name n, resource (file bs None info) (B"XObject") name n -> font_named (props_of_names (image_names xs 0)) name n).
Proof.
  intros bs info fs xs Hs B2 If Ix. destruct (file_object bs None info Hs _ _ B2) as (r & OT).
  assert (OI : object_is (file bs None info) 3 (PDict (procset_dict fs xs))). { eexists _, _. split; [exact OT|]. split; [apply procset_reads|apply closes_here]. }
  split; intros name n (d & e & O & L & N); pose proof (object_unique _ _ _ _ O OI) as E; assert (d = procset_dict fs xs) by congruence; subst d.
  - eapply entry_named; [apply font_entries|exact If|]. change (Some (PDict (map font_entry fs)) = Some (PDict e)) in L. assert (map font_entry fs = e) by congruence. subst e. exact N.
  - eapply entry_named; [apply xobj_names|exact Ix|]. change (Some (PDict (xobj_entries xs 0)) = Some (PDict e)) in L. assert (xobj_entries xs 0 = e) by congruence. subst e. exact N.
Qed.
Lemma leaf_leaves : forall ks, flat_map leaves (map Leaf ks) = ks.
Proof. induction ks as [|k ks IH]; [reflexivity|]. cbn [map flat_map leaves app]. rewrite IH. reflexivity. Qed.
Lemma leaf_ids : forall ks, flat_map tree_ids (map Leaf ks) = ks.
Proof. induction ks as [|k ks IH]; [reflexivity|]. cbn [map flat_map tree_ids app]. rewrite IH. reflexivity. Qed.
Lemma tidy_dict : forall K p rid ts info L r rps fps, tidy K p rid ts info -> In L (flat_map leaves ts) -> info L = ResAt r rps (FontIn fps) -> page_dict K (objs p) L fps.
Proof.
  intros K p rid ts info L r rps fps T HL E. destruct (td_pages _ _ _ _ T L HL) as (ps & (D & P) & _). rewrite E in P. destruct P as (v & On & RO & Dr & (w & (HK & AL) & Ty & RP)).
  assert (VW : value rps K w).
  { destruct HK as (w0 & O). clear -O AL. induction rps as [|q rps IH]; [destruct O|]. destruct (list_eq_dec Z.eq_dec (pkey q) K) as [E|E].
    - destruct q as (k, x). cbn [pkey] in E. subst k. rewrite (AL x (or_introl eq_refl)). exists [], rps. split; [reflexivity|intros q []].
    - destruct O as [->|O]; [cbn [pkey] in E; contradiction|]. destruct IH as (a & b & -> & Hn); [exact O|intros w1 O1; apply AL; right; exact O1|]. exists (q :: a), b. split; [reflexivity|]. intros q' [<-|H']; [exact E|apply Hn; exact H']. }
  exists ps, v, rps, w. split; [exact D|]. split.
  { destruct On as (a & b & -> & Ha & _). exists a, b. split; [reflexivity|]. intros q Hq X. apply Ha. exists (pval q). destruct q as (k, x). cbn [pkey pval] in *. subst k. exact Hq. }
  split; [right; exists r; auto|]. split; [exact VW|]. left. auto.
Qed.

Theorem doc_ready : forall w rnd cfg t F float inflate, document w rnd cfg t F -> blen F < 10 ^ 10 -> real_infos t -> no_words F -> accepts float -> compresses w inflate ->
  cfg_use cfg = false -> pages_of t <> [] -> Forall (has_contents w) (pages_of t) -> forallb own_size (pages_of t) = true ->
  exists os kids srcs fi xi,
    (forall f, exists d, PDFParse float (S (S f)) F nodoc = (d, Ok tt) /\ d_pdf d = mkPdf 1 os) /\ NoDup (map oid os) /\ all_objects F os /\ NoDup kids /\ NoDup (content_ids srcs) /\
    Forall2 (fun x p => exists c body, snd x = Some (c, body) /\ made_page w inflate cfg F p (fst x) c body) (combine kids srcs) (pages_of t) /\ List.length kids = List.length srcs /\
    (forall L, In L kids -> xi L <> NoRes /\ offered (xi L) <> None /\ offered (fi L) <> None /\ page_objects L (fi L) = [3]) /\
    (exists rps fps, Forall readable_font fps /\ forall L, fi L = ResAt 3 rps (FontIn fps)) /\
    (exists fps xps, Forall (fun q => numbered_name (pkey q)) fps /\ (forall name n, resource F (B"Font") name n -> font_named fps name n) /\ (forall name n, resource F (B"XObject") name n -> font_named xps name n) /\
      forall extra L, NoDup (map oid (os ++ extra)) -> In L kids -> page_fonts (os ++ extra) L fps /\ page_images (os ++ extra) L xps) /\
    forall extra, NoDup (map oid (os ++ extra)) ->
      ready_document (mkPdf 1 (os ++ extra)) 2 (map Leaf kids) fi xi /\ Forall2 (source inflate (os ++ extra)) kids srcs /\
      (forall c, In c (content_ids srcs) -> ~ In c (1 :: 2 :: kids) /\ ~ page_object kids fi c).
Proof.
  intros w rnd cfg t F float inflate D Hs NI NW Ac Cp NU NP HP HO. destruct (doc_more _ _ _ _ _ D NU HP) as (g0 & g & bs & l & fs & xs & S & R & EF & B0 & B1 & B2 & Bx & Bf & FL & ND1 & ND2 & AP).
  pose proof (rep_run _ _ _ _ _ _ S R) as RR. subst F. apply real_of in NI. set (info := info_of t) in *. clearbody info.
  destruct (no_words_in bs None info Hs) as (O1 & O2 & O3); [discriminate|exact NW|].
  assert (Hl : Z.of_nat (List.length bs) < 2 ^ 62) by (pose proof (file_len bs None info); lia).
  assert (Hx : Z.of_nat (List.length xs) < 2 ^ 62) by (pose proof (procset_len fs xs 0); pose proof (body_len bs None info _ _ B2); lia).
  set (kids := map (fun i => i + 1) (map fst l)).
  assert (HPg : Forall2 (fun x opt => 3 <= fst x /\ 3 <= snd x /\ nth_error bs (Z.to_nat (fst x)) = Some (page_build (g_ref (snd x)) (B"3 0 R") opt)) l (map (fun p => norm (fst p)) (pages_of t))).
  { clear -FL. induction FL as [|x p l ps (P1 & P2 & P3 & _) _ IH]; cbn [map]; constructor; auto. }
  assert (HB : Forall2 (page_body bs) (map fst l) (map (fun p => norm (fst p)) (pages_of t))).
  { clear -HPg. induction HPg as [|x o l ops (P1 & P2 & P3) _ IH]; cbn [map]; constructor; [|exact IH]. split; [lia|]. exists (Some (snd x)). cbn [one flat_map]. rewrite app_nil_r. exact P3. }
  assert (HP2 : Forall2 (fun x opt => 3 <= fst x /\ nth_error bs (Z.to_nat (fst x)) = Some (page_build (flat_map g_ref (one (snd x))) (B"3 0 R") opt)) (map (fun x => (fst x, Some (snd x))) l) (map (fun p => norm (fst p)) (pages_of t))).
  { clear -HPg. induction HPg as [|x o l ops (P1 & P2 & P3) _ IH]; cbn [map]; constructor; [|exact IH]. cbn [fst snd one flat_map]. rewrite app_nil_r. auto. }
  assert (E1 : map fst (map (fun x : Z * Z => (fst x, Some (snd x))) l) = map fst l) by (rewrite map_map; reflexivity).
  assert (Nl : map (fun x : Z * Z => (fst x, Some (snd x))) l <> []) by (intros E; apply map_eq_nil in E; subst l; inversion FL; congruence).
  assert (RDY : forall extra, NoDup (map oid (opened bs ++ extra)) -> ready_document (mkPdf 1 (opened bs ++ extra)) 2 (map Leaf kids)
    (fun _ => ResAt 3 (res_props (font_names fs) (image_names xs 0)) (FontIn (props_of_names (font_names fs)))) (fun _ => ResAt 3 (res_props (font_names fs) (image_names xs 0)) (FontIn (props_of_names (image_names xs 0))))).
  { intros extra HU. assert (B1' : nth_error bs 1 = Some (pages_build (cfg_w cfg) (cfg_h cfg) (Z.of_nat (List.length (map (fun x : Z * Z => (fst x, Some (snd x))) l))) (flat_map g_ref (map fst (map (fun x : Z * Z => (fst x, Some (snd x))) l))))) by (rewrite E1, map_length; exact B1).
    assert (ND1' : NoDup (map fst (map (fun x : Z * Z => (fst x, Some (snd x))) l))) by (rewrite E1; exact ND1).
    pose proof (r_ready bs _ _ _ _ fs xs Hl B0 B1' B2 Hx Bx HP2 ND1' Nl extra HU) as RD. rewrite E1 in RD. exact RD. }
  (* the content streams *)
  assert (CS : exists bodies, Forall2 (fun y p => let '(x, body) := y in made_page w inflate cfg (file bs None info) p (fst x + 1) (1 + snd x) body /\
      exists b, nth_error bs (Z.to_nat (snd x)) = Some b /\ 3 <= snd x /\ forall os, exists ps raw, stream_text os ([10] ++ b) ps raw /\ plain_start raw /\ ContentSpec.decodes inflate ps raw body)
      (combine l bodies) (pages_of t) /\ List.length bodies = List.length l).
  { clear -FL RR HP Hs Cp. revert RR HP. induction FL as [|x p l ps (P1 & P2 & P3 & cs & s & b & st & Q1 & Q2 & Q3 & Q4) _ IH]; intros RR HP; [exists []; split; constructor|].
    inversion RR as [|? ? R1 R2]; subst. inversion HP as [|? ? (Fa & Fb & _) HP2]; subst. destruct (IH R2 HP2) as (bodies & FB & EB). exists (s :: bodies). cbn [combine List.length]. split; [|rewrite EB; reflexivity]. constructor; [|exact FB].
    split; [split; [apply page_in; assumption|split]|].
    - destruct (file_object bs None info Hs _ _ Q3) as (r & OT). rewrite Z2Nat.id in OT by lia.
      destruct (content_reads w inflate _ _ (1 + snd x) s b st r (fun l' s' => proj1 (Cp l' s')) ltac:(lia) Q4) as (d & raw & mid & SO & DE & UN).
      exists d, raw, mid. split; [eexists; split; [exact OT|exact SO]|split; [exact DE|exact UN]].
    - intros TO SD. eapply page_stream; eauto.
    - exists b. split; [exact Q3|]. split; [exact P2|]. intros os. eapply content_source; [exact Q4| | |eapply caches_begin; exact Q2].
      + pose proof (body_len bs None info _ _ Q3). lia.
      + intros _. split; [apply Cp|]. destruct (proj2 (Cp (g_level g) s)) as (r & ->). cbn [plain_start]. lia. }
  destruct CS as (bodies & CS & EB).
  set (srcs := map (fun y : Z * Z * bytes => Some (1 + snd (fst y), snd y)) (combine l bodies)).
  assert (EC : content_ids srcs = map (fun i => 1 + i) (map snd l)).
  { unfold srcs. clear -EB. revert bodies EB. induction l as [|x l IH]; intros [|y bodies] E; try discriminate; [reflexivity|]. cbn [combine map content_ids flat_map app fst snd]. f_equal. apply IH. cbn in E. congruence. }
  assert (EL : List.length kids = List.length srcs) by (unfold kids, srcs; rewrite !map_length, combine_length; lia).
  exists (opened bs), kids, srcs. exists (fun _ => ResAt 3 (res_props (font_names fs) (image_names xs 0)) (FontIn (props_of_names (font_names fs)))), (fun _ => ResAt 3 (res_props (font_names fs) (image_names xs 0)) (FontIn (props_of_names (image_names xs 0)))).
  split; [|split; [|split; [|split; [|split; [|split; [|split; [exact EL|split; [|split; [|split]]]]]]]]].
  - intros f. destruct (parse_doc float f bs None info _ _ _ _ _ Hs Logic.I NI O1 O2 O3 B0 B1 HB) as (T & xr & EP). destruct (sizes_fit float Ac (pages_of t) 0 HO) as (ss & Rs & Sz).
    pose proof (sizes_all bs Hl float _ _ ss HB Rs 0 [] []) as SA. rewrite app_nil_r in SA. rewrite SA in EP. cbn [page_sizes app] in EP. eexists. split; [exact EP|reflexivity].
  - rewrite opened_ids. apply FinFun.Injective_map_NoDup; [intros x y; lia|apply seq_NoDup].
  - apply opened_all; assumption || exact Logic.I.
  - unfold kids. apply FinFun.Injective_map_NoDup; [intros x y; lia|exact ND1].
  - rewrite EC. apply FinFun.Injective_map_NoDup; [intros x y; lia|exact ND2].
  - unfold kids, srcs. clear -CS EB. revert bodies CS EB. generalize (pages_of t). induction l as [|x l IH]; intros ps [|y bodies] CS EB; try discriminate; [inversion CS; constructor|].
    cbn [combine map] in *. inversion CS as [|? p ? ps' M0 CS2]; subst. cbv beta iota in M0. destruct M0 as (M & _). constructor; [exists (1 + snd x), y; split; [reflexivity|exact M]|]. apply IH; [exact CS2|]. cbn in EB. congruence.
  - intros L HL. cbn [offered page_objects font_objects app]. split; [discriminate|]. split; [discriminate|]. split; [discriminate|reflexivity].
  - eexists. eexists. split; [|intros L; reflexivity]. unfold props_of_names, font_names. rewrite map_map. apply Forall_map. eapply Forall_impl; [|exact Bf]. intros r Hr. cbv beta in Hr. cbn [fst snd].
    split; cbn [pkey pval]; [exists (B"F"), (r_count r + 1); split; [reflexivity|]; split; [|change (B"F") with [70]; constructor; [lia|constructor]]|exists (r_obj r + 1); apply readObjID_ref; unfold in_int, int64_min, int64_max; lia].
    pose proof (fonts_len fs xs 0). pose proof (body_len bs None info _ _ B2). lia.
  - exists (props_of_names (font_names fs)), (props_of_names (image_names xs 0)).
    pose proof (fonts_len fs xs 0) as Fl. pose proof (body_len bs None info _ _ B2) as Bl.
    assert (If : Forall (fun e => in_int (snd e)) (font_names fs)).
    { unfold font_names. apply Forall_map. eapply Forall_impl; [|exact Bf]. intros r Hr. cbv beta in Hr. cbn [snd]. unfold in_int, int64_min, int64_max. lia. }
    assert (Ix : Forall (fun e => in_int (snd e)) (image_names xs 0)).
    { assert (G : forall l0, Forall (fun e => in_int (snd e)) (image_names xs l0)); [|apply G]. clear -Bx Hl. induction Bx as [|x xs X _ IH]; intros l0; constructor; [|apply IH]. cbn [snd]. unfold in_int, int64_min, int64_max. lia. }
    destruct (resource_names bs info fs xs Hs B2 If Ix) as (N1 & N2). split; [|split; [exact N1|split; [exact N2|]]].
    + unfold props_of_names, font_names. rewrite map_map. apply Forall_map. eapply Forall_impl; [|exact Bf]. intros r Hr. cbv beta in Hr. cbn [fst pkey]. exists (B"F"), (r_count r + 1).
      split; [reflexivity|]. split; [lia|]. change (B"F") with [70]. constructor; [|constructor]. lia.
    + intros extra L HU HL. pose proof (RDY extra HU) as RD.
      assert (HL2 : In L (flat_map leaves (map Leaf kids))) by (rewrite leaf_leaves; exact HL).
      split; [exact (tidy_dict _ _ _ _ _ L _ _ _ (rd_fonts _ _ _ _ _ RD) HL2 eq_refl)|exact (tidy_dict _ _ _ _ _ L _ _ _ (rd_images _ _ _ _ _ RD) HL2 eq_refl)].
  - intros extra HU.
    split; [|split].
    + exact (RDY extra HU).
    + unfold srcs, kids. assert (IN : forall x, In x l -> In (fst x + 1) (map (fun i => i + 1) (map fst l))) by (intros x Hx0; rewrite map_map; apply (in_map (fun y => fst y + 1)) in Hx0; exact Hx0).
      assert (GEN : forall l2 ops2 ps2 bod2, (forall x, In x l2 -> In x l) -> Forall2 (fun x opt => 3 <= fst x /\ 3 <= snd x /\ nth_error bs (Z.to_nat (fst x)) = Some (page_build (g_ref (snd x)) (B"3 0 R") opt)) l2 ops2 ->
        Forall2 (fun (y : Z * Z * bytes) (p : f64 * f64 * trace) => let '(x, body) := y in exists b, nth_error bs (Z.to_nat (snd x)) = Some b /\ 3 <= snd x /\ forall os, exists ps raw, stream_text os ([10] ++ b) ps raw /\ plain_start raw /\ ContentSpec.decodes inflate ps raw body) (combine l2 bod2) ps2 ->
        List.length bod2 = List.length l2 ->
        Forall2 (source inflate (opened bs ++ extra)) (map (fun i => i + 1) (map fst l2)) (map (fun y : Z * Z * bytes => Some (1 + snd (fst y), snd y)) (combine l2 bod2))).
      { induction l2 as [|x l2 IH]; intros ops2 ps2 bod2 I2 P2 C2 E2; destruct bod2 as [|y bod2]; try discriminate; [constructor|]. cbn [combine map fst snd] in *.
        inversion P2 as [|? opt ? ops3 (A1 & A2 & A3) P3]; subst. inversion C2 as [|? p ? ps3 M0 C3]; subst. cbv beta iota in M0. destruct M0 as (b & N1 & N2 & N3). constructor.
        - destruct (N3 (opened bs ++ extra)) as (ps & raw & X1 & X2 & X3).
          eapply (r_source bs _ _ fs xs Hl HP2 extra HU inflate (fst x + 1) (fst x) (snd x) opt b ps raw y); try eassumption; [rewrite E1; apply IN, I2; left; reflexivity|lia].
        - eapply IH; [intros z Hz; apply I2; right; exact Hz|exact P3|exact C3|cbn in E2; congruence]. }
      eapply (GEN l _ (pages_of t) bodies); [auto|exact HPg| |exact EB].
      clear -CS. revert CS. generalize (combine l bodies) (pages_of t). intros ys0 ps0 CS. induction CS as [|(x, body) p ys ps (_ & C) _ IH]; constructor; [exact C|exact IH].
    + intros c Hc. rewrite EC in Hc. rewrite map_map in Hc. apply in_map_iff in Hc. destruct Hc as (x & <- & Hx0).
      assert (S3 : 3 <= snd x). { clear -HPg Hx0. induction HPg as [|y o l ops (P1 & P2 & P3) _ IH]; [destruct Hx0|]. destruct Hx0 as [->|Hx0]; auto. }
      split.
      * intros [O|[O|O]]; [lia|lia|]. unfold kids in O. apply in_map_iff in O. destruct O as (i & Ei & Hi). apply (AP i (snd x) Hi); [apply in_map; exact Hx0|lia].
      * intros (L & _ & O). cbn [page_objects font_objects app In] in O. lia.
Qed.
