(** Where the objects of the fonts and pictures of a document are. *)
From Coq Require Import String List ZArith Lia Bool.
From Coq.Floats Require Import SpecFloat.
From Verif Require Import Base BaseProofs Output Png Crypto Float64 Ttf Subset CharMap Text ApiIds GoPdf GoPdfSpec GoPdfFile GoPdfPages GoPdfRun GoPdfDoc GoPdfTree GoPdfState GoPdfKeep GoPdfView GoPdfSetSpec GoPdfFonts.
Open Scope Z_scope.
Open Scope list_scope.

(** ** Kinds stay *)
Lemma keeps_set : forall l i k m x, nth_error l m = Some x -> i <> m -> nth_error (set_nth i (fun _ : gkind => k) l) m = Some x.
Proof. intros l i k m x H N. rewrite nth_set_at. destruct (Nat.eqb_spec i m); [contradiction|exact H]. Qed.
Lemma keeps_app : forall A (l r : list A) m x, nth_error l m = Some x -> nth_error (l ++ r) m = Some x.
Proof. intros A l r m x H. rewrite nth_error_app1; [exact H|]. apply nth_error_Some. congruence. Qed.
Lemma view_keeps : forall w g c e g', view_next w g c e g' -> forall m k, nth_error (V g) m = Some k -> (forall rs xs, k <> KProcSet rs xs) -> nth_error (V g') m = Some k.
Proof.
  intros w g c e g' H m k N D.
  assert (P : plainly g g' -> nth_error (V g') m = Some k). { intros (l & E & _). rewrite E. apply keeps_app. exact N. }
  unfold view_next in H. destruct c; try (apply P; exact H); destruct e; try (apply P; exact H).
  - destruct H as (d & t & kp & rs & xs & _ & _ & _ & N2 & X). cbv zeta in X. destruct X as (_ & E & _). rewrite E. apply keeps_app, keeps_set; [exact N|]. intros <-. rewrite N2 in N. injection N as <-. eapply D. reflexivity.
  - destruct (find _ _) as [y0|]; [apply P, drew_plainly; exact H|]. destruct H as (info & rs & xs & l & info' & rgb & tail & _ & N2 & X). cbv zeta in X. destruct X as (_ & E & _).
    rewrite E. apply keeps_app, keeps_set; [exact N|]. intros <-. rewrite N2 in N. injection N as <-. eapply D. reflexivity.
Qed.

(** ** The five objects of a font *)
Definition five (n : nat) (i : Z) (p : option protection) : list gkind := [KUnicode n p; KDict n p; KDesc n (i + 1); KCid n (i + 2); KFont n].
Definition chained (g : gp) (n : nat) (f : gfont) : Prop :=
  0 <= gf_unicode f /\ gf_cid f = gf_unicode f + 3 /\ forall j k, nth_error (five n (gf_unicode f) (g_prot g)) j = Some k -> nth_error (V g) (Z.to_nat (gf_unicode f) + j) = Some k.
Lemma five_plain : forall n i p j k, nth_error (five n i p) j = Some k -> forall rs xs, k <> KProcSet rs xs.
Proof. intros n i p j k H rs xs ->. apply nth_error_In in H. cbn in H. intuition discriminate. Qed.

(** What stays of a font *)
Definition skel (f : gfont) : bytes * Z * ttf * bytes * Z * Z * Z := (gf_family f, gf_style f, gf_ttf f, gf_beyond f, gf_count f, gf_cid f, gf_unicode f).
Lemma map_set_same : forall A C (h : A -> C) (f : A -> A) l n, (forall x, h (f x) = h x) -> map h (set_nth n f l) = map h l.
Proof. intros A C h f. induction l as [|x l IH]; intros [|n] H; cbn [set_nth map]; [reflexivity|reflexivity|rewrite H; reflexivity|rewrite IH by exact H; reflexivity]. Qed.
Lemma skel_next : forall g c e fs, fonts_next g c e fs -> (forall f k st fi b, c = AddFont f k st fi b -> e <> None) -> map skel fs = map skel (g_fonts g).
Proof.
  intros g c e fs H N. destruct c; cbn [fonts_next] in H; try (rewrite H; reflexivity); try (destruct H as (n & f & _ & _ & ->); apply map_set_same; reflexivity).
  - destruct e; [rewrite H; reflexivity|]. exfalso. eapply N; reflexivity.
  - destruct e; [rewrite H; reflexivity|]. destruct H as (n & ->). apply map_set_same. reflexivity.
Qed.
Lemma skel_back : forall fs fs', map skel fs' = map skel fs -> forall n f', nth_error fs' n = Some f' -> exists f, nth_error fs n = Some f /\ skel f' = skel f.
Proof.
  intros fs fs' E n f' N. assert (X : nth_error (map skel fs') n = Some (skel f')) by (rewrite nth_error_map, N; reflexivity). rewrite E, nth_error_map in X. destruct (nth_error fs n) as [f|]; [|discriminate].
  exists f. split; [reflexivity|]. cbn [option_map] in X. congruence.
Qed.
Lemma added_call : forall w g c e g', view_next w g c e g' -> (exists f k st fi b, c = AddFont f k st fi b /\ e = None /\ font_added g f k st fi b g') \/ (forall f k st fi b, c = AddFont f k st fi b -> e <> None).
Proof.
  intros w g c e g' H. destruct c; try (right; intros; discriminate). destruct e as [e|]; [right; intros; discriminate|]. left. eexists _, _, _, _, _. split; [reflexivity|]. split; [reflexivity|exact H].
Qed.

(** ** The fonts of the resources *)
Definition keyed (r : relfont) (f : gfont) : Prop := r_family r = gf_family f /\ r_style r = no_underline (gf_style f).
Record rels (fs : list gfont) (k : Z) (rs : list relfont) : Prop := mkRels {
  rl_len : k = Z.of_nat (List.length rs);
  rl_each : forall j r, nth_error rs j = Some r -> r_count r = Z.of_nat j /\ exists n f, nth_error fs n = Some f /\ gf_count f = Z.of_nat j /\ r_obj r = gf_unicode f + 4 /\ keyed r f /\
    forall m fm, (m < n)%nat -> nth_error fs m = Some fm -> ~ keyed r fm;
  rl_all : forall n f, nth_error fs n = Some f -> exists j r, nth_error rs j = Some r /\ keyed r f }.
Lemma rels_skel : forall fs fs' k rs, map skel fs' = map skel fs -> rels fs k rs -> rels fs' k rs.
Proof.
  intros fs fs' k rs E [L Ea A]. pose proof (skel_back _ _ E) as Bk. pose proof (skel_back _ _ (eq_sym E)) as Fw.
  assert (KS : forall r f f', skel f' = skel f -> keyed r f -> keyed r f'). { intros r f f' Es (K1 & K2). unfold skel in Es. split; congruence. }
  constructor; [exact L| |].
  - intros j r Hj. destruct (Ea j r Hj) as (C & n & f & N & C2 & O & K & Mi). split; [exact C|]. destruct (Fw _ _ N) as (f' & N' & Es). exists n, f'. split; [exact N'|]. unfold skel in Es.
    split; [congruence|]. split; [congruence|]. split; [eapply KS; [|exact K]; unfold skel; congruence|]. intros m fm Hm Nm Kr. destruct (Bk _ _ Nm) as (fm0 & N0 & E0). eapply Mi; [exact Hm|exact N0|]. eapply KS; [|exact Kr]. congruence.
  - intros n f' N'. destruct (Bk _ _ N') as (f & N & Es). destruct (A _ _ N) as (j & r & J & K). exists j, r. split; [exact J|]. eapply KS; [|exact K]. exact Es.
Qed.

(** ** Pictures *)
Definition pictured (w : gworld) (g : gp) (x : Z) (p : bytes * bytes * bytes) : Prop :=
  exists info info' rgb, parseImg (gw_config w) (gw_inflate w) (gw_compress w) (snd p) (snd (fst p)) = Ok info /\ 0 <= x /\ nth_error (V g) (Z.to_nat x) = Some (KImage info' rgb (g_prot g)) /\
    (colspace info <> B"Indexed" -> rgb = 0 /\
      match createSMask info with
      | None => info' = info
      | Some m => exists j, x < j /\ info' = setSMaskObjID info j /\ nth_error (V g) (Z.to_nat j) = Some (KSMask m (g_prot g))
      end).
Lemma pictures_snoc : forall t x, pictures (t ++ [x]) = picture_step (pictures t) x. Proof. intros. unfold pictures. rewrite fold_left_app. reflexivity. Qed.

Record laid (w : gworld) (t : trace) (g : gp) : Prop := mkLaid {
  ld_fonts : forall n f, nth_error (g_fonts g) n = Some f -> chained g n f;
  ld_count : forall n, u_font (g_cur g) = Some n -> exists f, nth_error (g_fonts g) n = Some f /\ u_count (g_cur g) = gf_count f;
  ld_names : map (fun c => fst (fst c)) (u_cache (g_cur g)) = map (fun p => fst (fst p)) (pictures t);
  ld_rels : exists rs xs, nth_error (V g) 2 = Some (KProcSet rs xs) /\ rels (g_fonts g) (u_fonts (g_cur g)) rs /\ Forall2 (pictured w g) xs (pictures t) }.

Lemma same_cache : forall w g c e u', cur_next w g c e u' -> (forall id d b x y r, c = ImageBy id d b x y r -> e <> None \/ exists z, find (fun c => beqb id (fst (fst c))) (u_cache (g_cur g)) = Some z) -> u_cache u' = u_cache (g_cur g).
Proof.
  intros w g c e u' H N. unfold cur_next in H. destruct c; cbv zeta in H; try (rewrite H; reflexivity); try (destruct H as (x1 & y1 & ->); reflexivity); try (destruct H as (k & ->); reflexivity).
  - unfold selects in H. destruct e; [destruct H as (-> & _); reflexivity|]. destruct H as (n & f & _ & _ & ->). reflexivity.
  - unfold selects in H. destruct e; [destruct H as (-> & _); reflexivity|]. destruct H as (n & f & _ & _ & ->). reflexivity.
  - destruct (N _ _ _ _ _ _ eq_refl) as [X|(z & X)]; [destruct e; [rewrite H; reflexivity|congruence]|]. destruct e; [rewrite H; reflexivity|]. rewrite X in H. rewrite H. reflexivity.
Qed.
Lemma same_fontcount : forall w g c e u', cur_next w g c e u' -> (forall f k st fi b, c = AddFont f k st fi b -> e <> None) -> (forall f k st fi b, c <> AddFont f k st fi b) -> u_fonts u' = u_fonts (g_cur g).
Proof.
  intros w g c e u' H _ N. unfold cur_next in H. destruct c; cbv zeta in H; try (rewrite H; reflexivity); try (destruct H as (x1 & y1 & ->); reflexivity).
  - unfold selects in H. destruct e; [destruct H as (-> & _); reflexivity|]. destruct H as (n & f & _ & _ & ->). reflexivity.
  - unfold selects in H. destruct e; [destruct H as (-> & _); reflexivity|]. destruct H as (n & f & _ & _ & ->). reflexivity.
  - exfalso. eapply N. reflexivity.
  - destruct e; [rewrite H; reflexivity|]. destruct (find _ _); [rewrite H; reflexivity|]. destruct H as (q & -> & _). reflexivity.
Qed.
Lemma failed_font : forall w g f k st fi b g' e, gstep w g (AddFont f k st fi b) = Ok (g', Some e) -> g_cur g' = g_cur g.
Proof.
  intros w g f k st fi b g' e H. cbn [gstep] in H. unfold g_add_font in H. destruct (match fi with Some _ => _ | None => _ end) as [(t, kp)| | |]; try discriminate; [|injection H as <- _; reflexivity].
  exfalso. destruct (addObj g _) as (g1, uni). destruct (addObj g1 _) as (g2, dict). destruct (addObj g2 _) as (g3, desc). destruct (addObj g3 _) as (g4, cid). destruct (addObj g4 _) as (g5, i).
  destruct (g_procset g5 =? -1); [discriminate|]. destruct (kind_at g5 (g_procset g5)) as [ps| | |]; cbn [bind] in H; try discriminate. destruct ps; try discriminate. destruct (existsb _ _); discriminate.
Qed.
Lemma find_named : forall l (c : list (bytes * Z * (f64 * f64))) (p : list (bytes * bytes * bytes)), map (fun c => fst (fst c)) c = map (fun p => fst (fst p)) p ->
  (existsb (fun p => beqb l (fst (fst p))) p = true <-> exists z, find (fun c => beqb l (fst (fst c))) c = Some z).
Proof.
  intros l. induction c as [|x c IH]; intros [|y p] E; try discriminate; cbn [existsb find map] in *; [split; [discriminate|intros (z & X); discriminate]|]. injection E as E1 E2. rewrite E1.
  destruct (beqb l (fst (fst y))); [cbn [orb]; split; [intros _; exists x; reflexivity|reflexivity]|]. cbn [orb]. apply IH. exact E2.
Qed.
Lemma plain_two : forall w g c e g', view_next w g c e g' -> (forall f k st fi b, c = AddFont f k st fi b -> e <> None) ->
  (forall id d b x y r, c = ImageBy id d b x y r -> e <> None \/ exists z, find (fun c => beqb id (fst (fst c))) (u_cache (g_cur g)) = Some z) -> exists l, V g' = V g ++ l.
Proof.
  intros w g c e g' H N1 N2. assert (P : plainly g g' -> exists l, V g' = V g ++ l). { intros (l & E & _). eauto. }
  unfold view_next in H. destruct c; try (apply P; exact H); destruct e; try (apply P; exact H).
  - exfalso. eapply N1; reflexivity.
  - destruct (N2 _ _ _ _ _ _ eq_refl) as [X|(z & X)]; [congruence|]. rewrite X in H. apply P, drew_plainly. exact H.
Qed.
Lemma count_next : forall w g c e u' fs', cur_next w g c e u' -> grows (g_fonts g) fs' -> (forall n f f', nth_error (g_fonts g) n = Some f -> nth_error fs' n = Some f' -> gf_count f' = gf_count f) ->
  (forall n, u_font (g_cur g) = Some n -> exists f, nth_error (g_fonts g) n = Some f /\ u_count (g_cur g) = gf_count f) ->
  forall n, u_font u' = Some n -> exists f, nth_error fs' n = Some f /\ u_count u' = gf_count f.
Proof.
  intros w g c e u' fs' H G S I n Hn.
  assert (X : u_font u' = u_font (g_cur g) -> u_count u' = u_count (g_cur g) -> exists f, nth_error fs' n = Some f /\ u_count u' = gf_count f).
  { intros E1 E2. rewrite E1 in Hn. destruct (I n Hn) as (f & N & C). destruct (G _ _ N) as (f' & N' & _). exists f'. split; [exact N'|]. rewrite E2, C. symmetry. eapply S; eauto. }
  assert (Se : forall fam st sz, selects g fam st sz e u' -> exists f, nth_error fs' n = Some f /\ u_count u' = gf_count f).
  { intros fam st sz Se. unfold selects in Se. destruct e; [destruct Se as (-> & _); apply X; reflexivity|]. destruct Se as (m & f & _ & N & ->). cbn [u_set_font u_font u_count] in *. injection Hn as <-.
    destruct (G _ _ N) as (f' & N' & _). exists f'. split; [exact N'|]. symmetry. eapply S; eauto. }
  unfold cur_next in H. destruct c; cbv zeta in H; try (apply X; rewrite H; reflexivity); try (destruct H as (x1 & y1 & H); apply X; rewrite H; reflexivity); try (destruct H as (k & H); apply X; rewrite H; reflexivity);
    try (eapply Se; exact H).
  destruct e; [apply X; rewrite H; reflexivity|]. destruct (find _ _); [apply X; rewrite H; reflexivity|]. destruct H as (q & H & _). apply X; rewrite H; reflexivity.
Qed.
Lemma pictured_keeps : forall w g g', (forall m k, nth_error (V g) m = Some k -> (forall rs xs, k <> KProcSet rs xs) -> nth_error (V g') m = Some k) -> g_prot g' = g_prot g -> forall x p, pictured w g x p -> pictured w g' x p.
Proof.
  intros w g g' Kp Ep x p (info & info' & rgb & P & L & N & M). exists info, info', rgb. rewrite Ep. split; [exact P|]. split; [exact L|]. split; [apply Kp; [exact N|intros; discriminate]|].
  intros C. destruct (M C) as (M1 & M2). split; [exact M1|]. destruct (createSMask info) as [m|]; [|exact M2]. destruct M2 as (j & M3 & M4 & M5). exists j. split; [exact M3|]. split; [exact M4|]. apply Kp; [exact M5|intros; discriminate].
Qed.

Lemma forall2_weaken : forall A C (P Q : A -> C -> Prop) l l', (forall x y, P x y -> Q x y) -> Forall2 P l l' -> Forall2 Q l l'.
Proof. intros A C P Q l l' H F. induction F; constructor; auto. Qed.

(** A font is added. *)
Lemma rels_dup : forall fs k rs f0, rels fs k rs -> (exists j r, nth_error rs j = Some r /\ keyed r f0) -> rels (fs ++ [f0]) k rs.
Proof.
  intros fs k rs f0 [L Ea A] X. constructor; [exact L| |].
  - intros j r Hj. destruct (Ea j r Hj) as (C & n & f & N & C2 & O & K & Mi). split; [exact C|]. exists n, f. split; [apply keeps_app; exact N|]. split; [exact C2|]. split; [exact O|]. split; [exact K|].
    intros m fm Hm Nm. apply (Mi m fm Hm). rewrite nth_error_app1 in Nm; [exact Nm|]. assert (n < List.length fs)%nat by (apply nth_error_Some; congruence). lia.
  - intros n f N. destruct (Nat.lt_ge_cases n (List.length fs)) as [Lt|Ge]; [rewrite nth_error_app1 in N by exact Lt; exact (A _ _ N)|].
    rewrite nth_error_app2 in N by exact Ge. destruct (n - List.length fs)%nat as [|z]; [|destruct z; discriminate]. injection N as <-. exact X.
Qed.
Lemma rels_new : forall fs k rs f0, rels fs k rs -> (forall r, In r rs -> ~ keyed r f0) -> gf_count f0 = k ->
  rels (fs ++ [f0]) (k + 1) (rs ++ [mkRel (gf_family f0) k (gf_unicode f0 + 4) (no_underline (gf_style f0))]).
Proof.
  intros fs k rs f0 [L Ea A] X C0. constructor.
  - rewrite app_length. cbn [List.length]. lia.
  - intros j r Hj. destruct (Nat.lt_ge_cases j (List.length rs)) as [Lt|Ge].
    + rewrite nth_error_app1 in Hj by exact Lt. destruct (Ea j r Hj) as (C & n & f & N & C2 & O & K & Mi). split; [exact C|]. exists n, f. split; [apply keeps_app; exact N|]. split; [exact C2|]. split; [exact O|]. split; [exact K|].
      intros m fm Hm Nm. apply (Mi m fm Hm). rewrite nth_error_app1 in Nm; [exact Nm|]. assert (n < List.length fs)%nat by (apply nth_error_Some; congruence). lia.
    + rewrite nth_error_app2 in Hj by exact Ge. destruct (j - List.length rs)%nat as [|z] eqn:Ej; [|destruct z; discriminate]. cbn [nth_error] in Hj. injection Hj as <-. cbn [r_count r_obj].
      assert (Z.of_nat j = k) by lia. split; [congruence|]. exists (List.length fs), f0. split; [rewrite nth_error_app2, Nat.sub_diag by lia; reflexivity|]. split; [congruence|]. split; [reflexivity|]. split; [split; reflexivity|].
      intros m fm Hm Nm (K1 & K2). cbn [r_family r_style] in K1, K2. rewrite nth_error_app1 in Nm by exact Hm. destruct (A _ _ Nm) as (i & r & Hi & (K3 & K4)). apply (X r); [eapply nth_error_In; eauto|]. split; congruence.
  - intros n f N. destruct (Nat.lt_ge_cases n (List.length fs)) as [Lt|Ge].
    + rewrite nth_error_app1 in N by exact Lt. destruct (A _ _ N) as (j & r & Hj & K). exists j, r. split; [apply keeps_app; exact Hj|exact K].
    + rewrite nth_error_app2 in N by exact Ge. destruct (n - List.length fs)%nat as [|z]; [|destruct z; discriminate]. injection N as <-. exists (List.length rs). eexists. split; [rewrite nth_error_app2, Nat.sub_diag by lia; reflexivity|].
      split; reflexivity.
Qed.

Theorem laid_run : forall rnd cfg w g0 t g, g_start rnd cfg gp0 = Ok g0 -> runs w g0 t g -> laid w t g.
Proof.
  intros rnd cfg w g0 t g S R. pose proof (inv_start _ _ _ S) as V0. induction R as [|t g c g' e R IH Sc].
  - unfold g_start in S. cbv zeta in S. cbn [addObj] in S. match type of S with bind ?e _ = _ => destruct e as [p| | |]; cbn [bind] in S; try discriminate end. injection S as <-. constructor.
    + intros [|n] f H; discriminate.
    + intros n H. discriminate.
    + reflexivity.
    + exists [], []. split; [reflexivity|]. split; [constructor; [reflexivity|intros [|j] r H; discriminate|intros [|n] f H; discriminate]|constructor].
  - pose proof (inv_run _ _ _ _ _ V0 R) as Vi. destruct (iv_cfg _ _ _ Vi) as (_ & _ & EP & _). pose proof (step_view _ _ _ _ _ EP (inv_three _ _ _ Vi) Sc) as X.
    destruct (step_small _ _ _ _ _ (inv_proc _ _ _ Vi) Sc) as (C & Y & Pr & _). pose proof (view_keeps _ _ _ _ _ X) as Kp. pose proof (fonts_grow _ _ _ _ Y) as Gr.
    destruct IH as [I1 I2 I3 (rs & xs & I4 & I5 & I6)]. pose proof (pictured_keeps w g g' Kp Pr) as PK.
    assert (P2 : Forall2 (pictured w g') xs (pictures t)) by (eapply forall2_weaken; [exact PK|exact I6]).
    destruct (added_call _ _ _ _ _ X) as [(f & k & st & fi & b & -> & -> & FA)|NF].
    + destruct FA as (d & tf & kp & rs0 & xs0 & _ & _ & _ & N0 & Z0). cbv zeta in Z0. destruct Z0 as (Ef & Ev & Eu). rewrite I4 in N0. injection N0 as <- <-.
      set (dup := existsb (fun r => beqb (r_family r) f && (r_style r =? no_underline st)) rs) in *. set (i := Z.of_nat (List.length (V g))) in *. set (cc := if dup then 0 else u_fonts (g_cur g)) in *.
      set (f0 := mkGF f tf b [] cc k st kp None (i + 3) i) in *.
      assert (KeepF : forall n fo, nth_error (g_fonts g) n = Some fo -> nth_error (g_fonts g') n = Some fo) by (intros n fo N; rewrite Ef; apply keeps_app; exact N).
      assert (Ec : u_font (g_cur g') = u_font (g_cur g) /\ u_count (g_cur g') = u_count (g_cur g) /\ u_cache (g_cur g') = u_cache (g_cur g)) by (rewrite Eu; destruct dup; auto).
      destruct Ec as (Ec1 & Ec2 & Ec3). assert (Pt : pictures (t ++ [(g, AddFont f k st fi b, None)]) = pictures t) by (rewrite pictures_snoc; reflexivity). constructor; try rewrite Pt.
      * intros n fo N. destruct (Nat.lt_ge_cases n (List.length (g_fonts g))) as [Lt|Ge].
        -- rewrite Ef, nth_error_app1 in N by exact Lt. destruct (I1 _ _ N) as (A1 & A2 & A3). split; [exact A1|]. split; [exact A2|]. intros j kk Hj. rewrite Pr in Hj. apply Kp; [apply A3; exact Hj|]. eapply five_plain; exact Hj.
        -- rewrite Ef, nth_error_app2 in N by exact Ge. destruct (n - List.length (g_fonts g))%nat as [|z] eqn:En; [|destruct z; discriminate]. injection N as <-. assert (n = List.length (g_fonts g)) by lia. subst n.
           unfold chained. change (gf_unicode f0) with i. change (gf_cid f0) with (i + 3). split; [unfold i; lia|]. split; [reflexivity|]. intros j kk Hj. replace (Z.to_nat i) with (List.length (V g)) by (unfold i; lia). rewrite Ev, nth_error_app2 by (rewrite set_nth_len; lia).
           rewrite set_nth_len. replace (List.length (V g) + j - List.length (V g))%nat with j by lia. rewrite Pr in Hj. exact Hj.
      * intros n Hn. rewrite Ec1 in Hn. destruct (I2 n Hn) as (fo & N & E). exists fo. split; [apply KeepF; exact N|]. rewrite Ec2. exact E.
      * rewrite Ec3. exact I3.
      * exists (if dup then rs else rs ++ [mkRel f cc (i + 4) (no_underline st)]), xs. split; [rewrite Ev; rewrite nth_error_app1 by (rewrite set_nth_len; pose proof (inv_three _ _ _ Vi); lia); rewrite nth_set_at, I4; reflexivity|]. split; [|exact P2].
        rewrite Ef, Eu. unfold cc in *. destruct dup eqn:Ed.
        -- apply rels_dup; [exact I5|]. apply existsb_exists in Ed. destruct Ed as (r & Hr & E). apply andb_prop in E. destruct E as (E1 & E2). apply beqb_eq in E1. apply Z.eqb_eq in E2. apply In_nth_error in Hr. destruct Hr as (j & Hj).
           exists j, r. split; [exact Hj|]. split; [exact E1|exact E2].
        -- apply (rels_new _ _ _ f0 I5); [|reflexivity]. intros r Hr (K1 & K2). assert (dup = true); [|congruence]. apply existsb_exists. exists r. split; [exact Hr|]. cbn [f0 gf_family gf_style] in K1, K2. rewrite K1, K2, Z.eqb_refl, (proj2 (beqb_eq _ _) eq_refl). reflexivity.
    + pose proof (skel_next _ _ _ _ Y NF) as Sk.
      assert (Fo : forall n fo, nth_error (g_fonts g') n = Some fo -> chained g' n fo).
      { intros n fo N. destruct (skel_back _ _ Sk _ _ N) as (fo' & N' & Es). destruct (I1 _ _ N') as (A1 & A2 & A3). unfold skel in Es. assert (E1 : gf_unicode fo = gf_unicode fo') by congruence. assert (E2 : gf_cid fo = gf_cid fo') by congruence.
        unfold chained. rewrite E1, E2, Pr. split; [exact A1|]. split; [exact A2|]. intros j kk Hj. apply Kp; [apply A3; exact Hj|]. eapply five_plain; exact Hj. }
      assert (Co : forall n, u_font (g_cur g') = Some n -> exists fo, nth_error (g_fonts g') n = Some fo /\ u_count (g_cur g') = gf_count fo).
      { apply (count_next _ _ _ _ _ (g_fonts g') C Gr); [|exact I2]. intros n fo fo' N N'. destruct (skel_back _ _ Sk _ _ N') as (fo2 & N2 & Es). assert (fo2 = fo) by congruence. subst fo2. unfold skel in Es. congruence. }
      assert (Uf : u_fonts (g_cur g') = u_fonts (g_cur g)).
      { destruct c; try (eapply same_fontcount; [exact C|exact NF|intros; discriminate]). destruct e as [e|]; [|exfalso; eapply NF; reflexivity]. rewrite (failed_font _ _ _ _ _ _ _ _ _ Sc). reflexivity. }
      assert (DI : (exists id d b x y r, c = ImageBy id d b x y r /\ e = None /\ find (fun c => beqb id (fst (fst c))) (u_cache (g_cur g)) = None) \/
        (forall id d b x y r, c = ImageBy id d b x y r -> e <> None \/ exists z, find (fun c => beqb id (fst (fst c))) (u_cache (g_cur g)) = Some z)).
      { destruct c; try (right; intros; discriminate). destruct e as [e|]; [right; intros; left; discriminate|]. destruct (find (fun c => beqb id (fst (fst c))) (u_cache (g_cur g))) as [z|] eqn:Ef.
        - right. intros ? ? ? ? ? ? E. injection E as <- _ _ _ _ _. right. exists z. exact Ef.
        - left. eexists _, _, _, _, _, _. split; [reflexivity|]. split; [reflexivity|exact Ef]. }
      destruct DI as [(id & d & bey & ix & iy & ir & -> & -> & Ef)|NI].
      * cbn [view_next cur_next] in X, C. cbv zeta in C. rewrite Ef in X, C. destruct C as (q & C & _). destruct X as (info & rs0 & xs0 & l & info' & rgb & tail & P & N0 & Z0). cbv zeta in Z0. destruct Z0 as (Bl & Ev & Ft & Fm).
        rewrite I4 in N0. injection N0 as <- <-.
        assert (Ex : existsb (fun p => beqb id (fst (fst p))) (pictures t) = false). { destruct (existsb _ _) eqn:E; [|reflexivity]. apply (find_named _ _ _ I3) in E. destruct E as (z & E). congruence. }
        assert (Pt : pictures (t ++ [(g, ImageBy id d bey ix iy ir, None)]) = pictures t ++ [(id, d, bey)]) by (rewrite pictures_snoc; unfold picture_step; cbn [fst snd]; rewrite Ex; reflexivity).
        constructor; try rewrite Pt; [exact Fo|exact Co| |].
        -- rewrite C. cbn [u_cache u_add_img]. rewrite !map_app, I3. reflexivity.
        -- set (i := Z.of_nat (List.length (V g))) in *. exists rs, (xs ++ [i]). split; [rewrite Ev; rewrite nth_error_app1 by (rewrite set_nth_len; pose proof (inv_three _ _ _ Vi); lia); rewrite nth_set_at, I4; reflexivity|].
           split; [rewrite Uf; eapply rels_skel; eauto|]. apply forall2_app1; [exact P2|].
           exists info, info', rgb. cbn [fst snd]. split; [exact P|]. split; [unfold i; lia|].
           assert (At : forall j, nth_error (V g') (List.length (V g) + j) = nth_error (KImage info' rgb (g_prot g) :: l ++ tail) j).
           { intros j. rewrite Ev, nth_error_app2, set_nth_len by (rewrite set_nth_len; lia). f_equal. lia. }
           split; [unfold i; rewrite Nat2Z.id; specialize (At O); rewrite Nat.add_0_r in At; rewrite At, Pr; reflexivity|].
           intros NC. destruct (Fm NC) as (F1 & F2). split; [exact F1|]. destruct (createSMask info) as [m|]; [|apply F2]. destruct F2 as (F2 & F3). exists (i + 1 + Z.of_nat (List.length l)). split; [lia|]. split; [exact F2|].
           replace (Z.to_nat (i + 1 + Z.of_nat (List.length l))) with (List.length (V g) + Datatypes.S (List.length l))%nat by (unfold i; lia). rewrite At. cbn [nth_error]. rewrite nth_error_app2, Nat.sub_diag, F3, Pr by lia. reflexivity.
      * assert (Ps : pictures (t ++ [(g, c, e)]) = pictures t).
        { rewrite pictures_snoc. unfold picture_step. cbn [fst snd]. destruct c; try reflexivity. destruct e; [reflexivity|]. destruct (NI _ _ _ _ _ _ eq_refl) as [E|E]; [congruence|]. apply (find_named _ _ _ I3) in E. rewrite E. reflexivity. }
        destruct (plain_two _ _ _ _ _ X NF NI) as (l & El). constructor; try rewrite Ps; [exact Fo|exact Co|rewrite (same_cache _ _ _ _ _ C NI); exact I3|].
        exists rs, xs. split; [rewrite El; apply keeps_app; exact I4|]. split; [rewrite Uf; eapply rels_skel; eauto|exact P2].
Qed.
