(** Documents of GoPdf: structure, contents, passwords and information. *)
From Coq Require Import String List ZArith Lia Bool.
From Coq.Floats Require Import SpecFloat.
From Verif Require Import Base BaseProofs Utf8 Output OutputSpec Md5Rc4 Crypto CryptoSpec CryptoProofs HexProofs PdfSyntax PdfSyntaxProofs Float64 Ttf Subset CharMap Text TextSpec TextNumbers TextDraw TextBody
  ApiIds GoPdf GoPdfSpec GoPdfFile GoPdfPages GoPdfRun GoPdfDoc GoPdfTree GoPdfDrawSpec GoPdfDraw GoPdfLine GoPdfState GoPdfText GoPdfDocSpec GoPdfOut.
Open Scope Z_scope.
Open Scope list_scope.

Lemma kept_run : forall rnd cfg w g0 t g, g_start rnd cfg gp0 = Ok g0 -> runs w g0 t g -> g_prot g = g_prot g0 /\ g_info g = info_of t.
Proof.
  intros rnd cfg w g0 t g S R. pose proof (inv_start _ _ _ S) as V0. induction R as [|t g c g' e R (IH1 & IH2) Sc].
  - split; [reflexivity|]. unfold g_start in S. cbv zeta in S. cbn [addObj] in S.
    match type of S with bind ?e _ = _ => destruct e as [p| | |]; cbn [bind] in S; try discriminate end. injection S as <-. reflexivity.
  - pose proof (inv_run _ _ _ _ _ V0 R) as V. destruct (step_small _ _ _ _ _ (inv_proc _ _ _ V) Sc) as (_ & _ & E1 & E2). split; [congruence|].
    unfold info_of. rewrite fold_left_app. cbn [fold_left fst snd]. rewrite E2, IH2. reflexivity.
Qed.
Lemma start_prot : forall rnd cfg g0, g_start rnd cfg gp0 = Ok g0 -> 0 <= cfg_perm cfg < 256 ->
  if cfg_use cfg then exists p, g_prot g0 = Some p /\ setProtection rnd (cfg_perm cfg) (cfg_user cfg) (cfg_owner cfg) = Ok p else g_prot g0 = None.
Proof.
  intros rnd cfg g0 S HP. unfold g_start in S. cbv zeta in S. cbn [addObj] in S. destruct (cfg_use cfg).
  - destruct (passwords_open rnd (cfg_perm cfg) (cfg_user cfg) (cfg_owner cfg) HP) as (pr & E & _). rewrite E in S. cbn [bind] in S. injection S as <-.
    exists pr. split; [reflexivity|exact E].
  - cbn [bind] in S. injection S as <-. reflexivity.
Qed.
Lemma start_unprot : forall rnd cfg g0, g_start rnd cfg gp0 = Ok g0 -> cfg_use cfg = false -> g_prot g0 = None.
Proof. intros rnd cfg g0 S E. unfold g_start in S. cbv zeta in S. cbn [addObj] in S. rewrite E in S. cbn [bind] in S. injection S as <-. reflexivity. Qed.

Lemma enc_skip : forall l l2 i e, forallb (fun o => match o_kind o with KEncrypt _ => false | _ => true end) l = true -> enc_of (l ++ l2) i e = enc_of l2 (i + Z.of_nat (List.length l)) e.
Proof.
  induction l as [|o l IH]; intros l2 i e H; cbn [app enc_of List.length]; [f_equal; lia|]. cbn [forallb] in H. apply andb_true_iff in H. destruct H as (H1 & H2).
  rewrite IH by exact H2. f_equal; [lia|]. destruct (o_kind o); try reflexivity. discriminate.
Qed.
Lemma enc_id : forall cfg g pl p, inv cfg g pl -> cfg_use cfg = true -> g_prot g = Some p ->
  with_enc g = g_objs g ++ [new_obj (KEncrypt p)] /\ enc_of (with_enc g) 0 (g_enc g) = 1 + Z.of_nat (List.length (g_objs g)).
Proof.
  intros cfg g pl p V Hu Hp. destruct (iv_cfg _ _ _ V) as (Ec & _). assert (W : with_enc g = g_objs g ++ [new_obj (KEncrypt p)]). { unfold with_enc. rewrite Ec, Hu, Hp. reflexivity. }
  split; [exact W|]. rewrite W, enc_skip; [cbn [enc_of new_obj o_kind]; lia|].
  destruct (iv_objs _ _ _ V) as (fs & xs & rest & -> & I). cbn [forallb app new_obj o_kind andb].
  clear - I. induction rest as [|o r IH]; [reflexivity|]. cbn [forallb] in *. apply andb_true_iff in I. destruct I as (I1 & I2). rewrite IH by exact I2. rewrite andb_true_r.
  unfold inner in I1. destruct (o_kind o); try reflexivity. discriminate.
Qed.

(** ** C61: the file *)

Theorem doc_structure : forall w rnd cfg t F, document w rnd cfg t F -> blen F < 10 ^ 10 ->
  exists N base, table F N base /\ 3 < N /\ row_at F base 0 0 65535 102 /\
    (exists q, F = B"%PDF-1.7" ++ [10] ++ q) /\
    (forall id, 1 <= id < N -> exists b r, object_text F id (b ++ B"endobj" ++ [10] ++ r)) /\
    ((forall i, info_of t = Some i -> simple_info i) -> exists d, trailer_has F d /\ lookup (B"Size") d = Some (PInt N) /\ lookup (B"Root") d = Some (PRef 1 0) /\
       ((forall i, info_of t = Some i -> i_date i = None) -> trailer_is F (PDict d))).
Proof.
  intros w rnd cfg t F D Hs. destruct (doc_facts _ _ _ _ _ D) as (g0 & g & bs & info & S & R & V & Ei & EF & L & Ep & Es & K).
  destruct (kept_run _ _ _ _ _ _ S R) as (_ & Eg). rewrite Eg in Ei. clear Eg. destruct (iv_objs _ _ _ V) as (fs & xs & rest & Eo & Ri).
  assert (L3 : (3 <= List.length bs)%nat). { rewrite L. unfold with_enc. rewrite Eo, !app_length. cbn [List.length]. lia. }
  set (enc := if cfg_use cfg then Some (enc_of (with_enc g) 0 (g_enc g)) else None) in *. clearbody enc. subst F.
  destruct (file_trailer bs enc info Hs) as (base & T & Hb & Tr). exists (Z.of_nat (List.length bs) + 1), base. split; [exact T|]. split; [lia|]. split; [|split; [|split]].
  - destruct (table_unique _ _ _ _ _ T (file_table bs enc info)) as (_ & ->). apply file_free.
  - unfold file. eexists. unfold pdf_header. rewrite <- !app_assoc. reflexivity.
  - intros id Hid. destruct (nth_error bs (Z.to_nat (id - 1))) as [b|] eqn:E; [|apply nth_error_None in E; lia].
    destruct (file_object bs enc info Hs _ _ E) as (r & O). exists b, r. replace (1 + Z.of_nat (Z.to_nat (id - 1))) with id in O by lia. exact O.
  - intros HI. rewrite <- Ei in *.
    match type of Tr with skipn _ _ = B"trailer" ++ [10] ++ trailer_dict ?n ?e ?i ?r => destruct (trailer_reads n e i r HI) as (r' & RR & R1 & R2) end.
    exists (trailer_pvs (Z.of_nat (List.length bs)) enc info). split; [|split; [reflexivity|split; [reflexivity|]]].
    + exists (Z.of_nat (List.length bs) + 1), base. eexists _, r'. split; [exact T|]. split; [exact Hb|]. split; [lia|]. split; [exact Tr|exact RR].
    + intros HD. specialize (R1 HD). eexists (Z.of_nat (List.length bs) + 1), base, _, r', _. split; [exact T|]. split; [exact Hb|]. split; [lia|]. split; [exact Tr|]. split; [exact RR|].
      rewrite R1. reflexivity.
Qed.

(** ** C65: passwords *)

Lemma trailer_of : forall bs enc info, blen (file bs enc info) < 10 ^ 10 -> (forall i, info = Some i -> simple_info i) ->
  trailer_has (file bs enc info) (trailer_pvs (Z.of_nat (List.length bs)) enc info).
Proof.
  intros bs enc info Hs HI. destruct (file_trailer bs enc info Hs) as (base & T & Hb & Tr).
  match type of Tr with skipn _ _ = B"trailer" ++ [10] ++ trailer_dict ?n ?e ?i ?r => destruct (trailer_reads n e i r HI) as (r' & RR & _) end.
  exists (Z.of_nat (List.length bs) + 1), base. eexists _, r'. split; [exact T|]. split; [exact Hb|]. split; [lia|]. split; [exact Tr|exact RR].
Qed.

Definition enc_pvs (p : protection) : list (bytes * pv) :=
  [(B"Filter", PName (B"Standard")); (B"V", PInt 1); (B"R", PInt 2); (B"O", PStr (oValue p)); (B"U", PStr (uValue p)); (B"P", PInt (pValue p))].
Lemma enc_reads : forall p r, reads (enc_dict p ++ r) (PDict (enc_pvs p)) ([10] ++ r).
Proof.
  intros p r. unfold enc_dict, enc_pvs. rewrite <- !app_assoc. apply (reads_dict []); [apply Forall_nil|]. apply entries_skip; [blanks|].
  set (tl := B"/O (" ++ escape (oValue p) ++ B")" ++ [10] ++ B"/U (" ++ escape (uValue p) ++ B")" ++ [10] ++ B"/P " ++ itoa (pValue p) ++ [10] ++ B">>" ++ [10] ++ r).
  assert (TL : reads_entries tl [(B"O", PStr (oValue p)); (B"U", PStr (uValue p)); (B"P", PInt (pValue p))] ([10] ++ r)).
  { unfold tl. change (B"/O (" ++ ?x) with (47 :: B"O" ++ B" " ++ B"(" ++ x). eapply line_any; [regw|reflexivity|apply reads_str; [blanks|apply lit_escape]|].
    change (B"/U (" ++ ?x) with (47 :: B"U" ++ B" " ++ B"(" ++ x). eapply line_any; [regw|reflexivity|apply reads_str; [blanks|apply lit_escape]|].
    apply (last_int (B"P")). regw. }
  assert (SL : slash tl) by (eexists; reflexivity). clearbody tl.
  change (B"/Filter /Standard" ++ [10] ++ ?x) with (47 :: B"Filter" ++ (B" " ++ 47 :: B"Standard" ++ [10] ++ x)).
  eapply line_any; [regw|reflexivity|apply reads_name; [blanks|regw|reflexivity]|].
  change (B"/V 1" ++ [10] ++ ?x) with (47 :: B"V" ++ B" " ++ itoa 1 ++ [10] ++ x). apply line_int; [regw|eexists; reflexivity|].
  change (B"/R 2" ++ [10] ++ ?x) with (47 :: B"R" ++ B" " ++ itoa 2 ++ [10] ++ x). apply line_int; [regw|exact SL|]. exact TL.
Qed.

Lemma doc_opens : forall w rnd cfg t F, document w rnd cfg t F -> blen F < 10 ^ 10 -> (forall i, info_of t = Some i -> simple_info i) ->
  (cfg_use cfg = false -> opens F (cfg_user cfg) None) /\
  (cfg_use cfg = true -> 0 <= cfg_perm cfg < 256 -> forall p, setProtection rnd (cfg_perm cfg) (cfg_user cfg) (cfg_owner cfg) = Ok p ->
     opens F (cfg_user cfg) (Some (encryptionKey p)) /\ (cfg_owner cfg <> [] -> owner_too F (cfg_owner cfg))).
Proof.
  intros w rnd cfg t F D Hs HI. destruct (doc_facts _ _ _ _ _ D) as (g0 & g & bs & info & S & R & V & Ei & EF & L & Ep & Es & K).
  destruct (kept_run _ _ _ _ _ _ S R) as (Eq & Eg). rewrite Eg in Ei. subst info. subst F.
  pose proof (trailer_of _ _ _ Hs HI) as T. split.
  - intros Hu. rewrite Hu in *. eexists. split; [exact T|]. split; [reflexivity|]. unfold trailer_pvs. cbv iota. destruct (info_of t); reflexivity.
  - intros Hu HP p0 Hp0. rewrite Hu in *. pose proof (start_prot _ _ _ S HP) as SP. rewrite Hu in SP. destruct SP as (p & E0 & SP). rewrite <- Eq in E0.
    assert (p0 = p) by congruence. subst p0.
    destruct (enc_id _ _ _ _ V Hu E0) as (EW & EI). rewrite EI in *.
    destruct (K (List.length (g_objs g)) (new_obj (KEncrypt p))) as (lk & b & kd & lk' & B1 & N1 & _). { rewrite EW, nth_error_app2, Nat.sub_diag by lia. reflexivity. }
    cbn [linked o_kind new_obj build1] in B1. assert (b = enc_dict p) by congruence. subst b. clear B1.
    destruct (file_object bs _ _ Hs _ _ N1) as (r & O).
    assert (OI : object_is (file bs (Some (1 + Z.of_nat (List.length (g_objs g)))) (info_of t)) (1 + Z.of_nat (List.length (g_objs g))) (PDict (enc_pvs p))).
    { eexists _, _. split; [exact O|]. split; [apply enc_reads|apply closes_here]. }
    destruct (passwords_open rnd (cfg_perm cfg) (cfg_user cfg) (cfg_owner cfg) HP) as (pr & E & P1 & P2 & P3 & _). rewrite E in SP. assert (pr = p) by congruence. subst pr.
    split.
    + eexists. split; [exact T|]. split; [reflexivity|]. exists (1 + Z.of_nat (List.length (g_objs g))), (enc_pvs p), (oValue p), (uValue p), (pValue p).
      split; [reflexivity|]. split; [reflexivity|]. split; [exact OI|]. do 6 (split; [reflexivity|]). split; [exact P1|exact P3].
    + intros Ho. eexists _, (1 + Z.of_nat (List.length (g_objs g))), (enc_pvs p), (oValue p), (uValue p), (pValue p). split; [exact T|]. split; [reflexivity|].
      split; [exact OI|]. do 3 (split; [reflexivity|]). apply P2. exact Ho.
Qed.

Theorem doc_passwords : forall w rnd cfg t F, document w rnd cfg t F -> blen F < 10 ^ 10 -> (forall i, info_of t = Some i -> simple_info i) ->
  (cfg_use cfg = false -> opens F (cfg_user cfg) None) /\
  (cfg_use cfg = true -> 0 <= cfg_perm cfg < 256 -> exists key, opens F (cfg_user cfg) (Some key) /\ (cfg_owner cfg <> [] -> owner_too F (cfg_owner cfg))).
Proof.
  intros w rnd cfg t F D Hs HI. destruct (doc_opens _ _ _ _ _ D Hs HI) as (A & C). split; [exact A|]. intros Hu HP.
  destruct (passwords_open rnd (cfg_perm cfg) (cfg_user cfg) (cfg_owner cfg) HP) as (pr & E & _). exists (encryptionKey pr). apply C; assumption.
Qed.

(** ** C63: contents *)

Lemma key_of : forall F user key key', opens F user key -> opens F user key' -> (forall d d', trailer_has F d -> trailer_has F d' -> d = d') -> key = key'.
Proof.
  intros F user key key' (d & T & _ & H) (d' & T' & _ & H') U. rewrite <- (U _ _ T T') in H'. destruct key as [k|], key' as [k'|].
  - destruct H as (n & e & o & u & p & H1 & H2 & H3 & _ & _ & _ & H4 & H5 & H6 & _ & ->). destruct H' as (n' & e' & o' & u' & p' & H1' & H2' & H3' & _ & _ & _ & H4' & H5' & H6' & _ & ->).
    assert (n = n') by congruence. subst n'. pose proof (object_unique _ _ _ _ H3 H3') as X. assert (e = e') by congruence. subst e'. congruence.
  - destruct H as (n & e & o & u & p & H1 & _). congruence.
  - destruct H' as (n & e & o & u & p & H1 & _). congruence.
  - reflexivity.
Qed.
Lemma trailer_unique : forall F d d', trailer_has F d -> trailer_has F d' -> d = d'.
Proof.
  intros F d d' (N & b & s & r & T & _ & _ & E & R) (N' & b' & s' & r' & T' & _ & _ & E' & R'). destruct (table_unique _ _ _ _ _ T T') as (<- & <-).
  rewrite E in E'. do 2 apply app_inv_head in E'. subst s'. destruct (reads_unique _ _ _ _ _ R R') as (X & _). congruence.
Qed.

Theorem doc_contents : forall w inflate rnd cfg t F key, document w rnd cfg t F -> blen F < 10 ^ 10 -> finite (cfg_w cfg) -> finite (cfg_h cfg) ->
  Forall drawn_page (pages_of t) -> 0 <= cfg_perm cfg < 256 -> (forall i, info_of t = Some i -> simple_info i) ->
  (forall l x, inflate (gw_deflate w l x) = Ok x) -> opens F (cfg_user cfg) key ->
  exists kids, root_is F (cfg_w cfg, cfg_h cfg) kids /\ NoDup kids /\
    Forall2 (fun k p => exists c d s, page_is F k (cfg_w cfg, cfg_h cfg) (asked cfg (fst p)) c /\ decodes inflate key F c d s /\
      (texts_ok (snd p) -> Forall sound_op (wanted w (snd (asked cfg (fst p))) (snd p)) ->
       exists ops, operators s ops /\ Forall2 fit_op (wanted w (snd (asked cfg (fst p))) (snd p)) ops)) kids (pages_of t).
Proof.
  intros w inflate rnd cfg t F key D Hs Fw Fh HP Hp HI Hinf HO.
  destruct (doc_pages _ _ _ _ _ D Hs Fw Fh HP) as (g0 & g & kids & S & R & RI & ND & F2).
  destruct (kept_run _ _ _ _ _ _ S R) as (Eq & Eg). pose proof (rep_run _ _ _ _ _ _ S R) as RR.
  destruct (doc_opens _ _ _ _ _ D Hs HI) as (P1 & P2).
  assert (EK : key = option_map encryptionKey (g_prot g)).
  { apply (key_of F (cfg_user cfg) _ _ HO); [|apply trailer_unique]. rewrite Eq. pose proof (start_prot _ _ _ S Hp) as SP. destruct (cfg_use cfg) eqn:Eu.
    - destruct SP as (p & -> & SP). destruct (P2 eq_refl Hp p SP) as (X & _). exact X.
    - rewrite SP. apply P1. reflexivity. }
  exists kids. split; [exact RI|]. split; [exact ND|]. clear RI ND HP. induction F2 as [|k p kids ps (c & cs & b & kd & l & l' & r & PI & CS & BD & OT) F2 IH]; constructor.
  - inversion RR as [|? ? R1 _]; subst. cbn [build1] in BD. destruct (caches_stream (g_fonts g) cs) as [s| | |] eqn:Ec; cbn [bind] in BD; try discriminate.
    destruct (content_build w (g_level g) (g_prot g) c [] s) as [(b0, st)| | |] eqn:Eb; cbn [bind] in BD; try discriminate.
    assert (b0 = b) by congruence. subst b0. clear BD.
    assert (Hc : 0 <= c). { destruct OT as (N & bb & off & dd & _ & Hid & _). lia. }
    destruct (content_reads w inflate _ _ c s b st r Hinf Hc Eb) as (d & raw & mid & SO & DE & UN).
    exists c, d, s. split; [exact PI|]. split; [exists raw, mid; split; [eexists; split; [exact OT|exact SO]|split; [exact DE|exact UN]]|].
    intros TO SD. eapply page_stream; eauto.
  - inversion RR; subst. apply IH; assumption.
Qed.

(** ** C67: information *)

Lemma lookup_app : forall k l l', lookup k (l ++ l') = match lookup k l with Some v => Some v | None => lookup k l' end.
Proof. intros k l l'. induction l as [|(n, v) l IH]; [reflexivity|]. cbn [app lookup]. destruct (beqb n k); [reflexivity|exact IH]. Qed.
Lemma text_here : forall k v l, in_plane v -> text_entry (info_pv k v ++ l) k v \/ v = [].
Proof.
  intros k v l H. destruct v as [|c v]; [right; reflexivity|left]. unfold text_entry, info_pv. eexists. split; [cbn [app lookup]; rewrite (proj2 (beqb_eq k k) eq_refl); reflexivity|].
  exists (B"FEFF" ++ encode_utf8 (c :: v)). split; [reflexivity|]. rewrite info_hex, codes_of_hex by (apply info_codes; exact H). f_equal. f_equal.
  unfold in_plane in H. induction H as [|r l' Hr H IH]; [reflexivity|]. cbn [flat_map]. rewrite <- IH. unfold utf16. replace (r <? 65536) with true by lia. reflexivity.
Qed.
Lemma pv_other : forall k k' v, k <> k' -> lookup k (info_pv k' v) = None.
Proof. intros k k' v H. unfold info_pv. destruct v; [reflexivity|]. cbn [lookup]. destruct (beqb k' k) eqn:E; [apply beqb_eq in E; congruence|reflexivity]. Qed.
Lemma text_skip : forall k v l l', lookup k l = None -> text_entry l' k v -> text_entry (l ++ l') k v.
Proof. intros k v l l' H T. unfold text_entry in *. rewrite lookup_app, H. exact T. Qed.
Lemma text_last : forall k v l, in_plane v -> lookup k l = None -> text_entry (info_pv k v ++ l) k v.
Proof. intros k v l H N. destruct (text_here k v l H) as [T| ->]; [exact T|]. exact N. Qed.

Theorem doc_info : forall w rnd cfg t F, document w rnd cfg t F -> blen F < 10 ^ 10 -> (forall i, info_of t = Some i -> simple_info i) -> info_is F (info_of t).
Proof.
  intros w rnd cfg t F D Hs HI. destruct (doc_facts _ _ _ _ _ D) as (g0 & g & bs & info & S & R & V & Ei & EF & L & Ep & Es & K).
  destruct (kept_run _ _ _ _ _ _ S R) as (Eq & Eg). rewrite Eg in Ei. subst info. subst F. pose proof (trailer_of _ _ _ Hs HI) as T.
  eexists. split; [exact T|]. unfold trailer_pvs. destruct (info_of t) as [i|] eqn:Et.
  - exists (info_pvs i). split; [destruct (cfg_use cfg); reflexivity|]. destruct (HI i eq_refl) as (H1 & H2 & H3 & H4 & H5 & H6). unfold info_pvs.
    assert (DT : forall k, k <> B"CreationDate" -> lookup k (match i_date i with None => [] | Some s => [(B"CreationDate", PStr (B"D:" ++ s))] end) = None).
    { intros k N. destruct (i_date i); [|reflexivity]. unfold lookup. destruct (beqb (B"CreationDate") k) eqn:E; [apply beqb_eq in E; congruence|reflexivity]. }
    split; [|split; [|split; [|split; [|split]]]].
    + apply text_skip; [apply pv_other; discriminate|]. apply text_last; [assumption|]. rewrite !lookup_app, !pv_other by discriminate. apply DT. discriminate.
    + apply text_last; [assumption|]. rewrite !lookup_app, !pv_other by discriminate. apply DT. discriminate.
    + do 2 (apply text_skip; [apply pv_other; discriminate|]). apply text_last; [assumption|]. rewrite !lookup_app, !pv_other by discriminate. apply DT. discriminate.
    + do 3 (apply text_skip; [apply pv_other; discriminate|]). apply text_last; [assumption|]. rewrite !lookup_app, !pv_other by discriminate. apply DT. discriminate.
    + do 4 (apply text_skip; [apply pv_other; discriminate|]). apply text_last; [assumption|]. apply DT. discriminate.
    + rewrite !lookup_app, !pv_other by discriminate. destruct (i_date i); reflexivity.
  - destruct (cfg_use cfg); reflexivity.
Qed.

(** ** C62: pages *)

Theorem doc_tree : forall w rnd cfg t F, document w rnd cfg t F -> blen F < 10 ^ 10 -> finite (cfg_w cfg) -> finite (cfg_h cfg) -> Forall drawn_page (pages_of t) ->
  exists kids, root_is F (cfg_w cfg, cfg_h cfg) kids /\ NoDup kids /\ Forall2 (fun k p => exists c, page_is F k (cfg_w cfg, cfg_h cfg) (asked cfg (fst p)) c) kids (pages_of t).
Proof.
  intros w rnd cfg t F D Hs Fw Fh HP. destruct (doc_pages _ _ _ _ _ D Hs Fw Fh HP) as (g0 & g & kids & _ & _ & RI & ND & F2). exists kids. split; [exact RI|]. split; [exact ND|].
  clear - F2. induction F2 as [|k p kids ps (c & cs & b & kd & l & l' & r & PI & _) F2 IH]; constructor; [exists c; exact PI|exact IH].
Qed.
