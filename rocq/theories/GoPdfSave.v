(** The documents of GoPdf can be saved (C91). *)
From Coq Require Import String List ZArith Lia Bool.
From Coq.Floats Require Import SpecFloat.
From Verif Require Import Base BaseProofs Utf8 Output Png Md5Rc4 Crypto CryptoProofs Float64 Ttf TtfSpec TtfProofs TtfTables TtfTotal TtfCmap Subset CharMap FontFile FontGlyphs FontClosure FontEmbed FontTotal FontFinal Text TextCases ApiIds.
From Verif Require Import SaveGoesFinal GoPdf GoPdfSpec GoPdfFile GoPdfPages GoPdfRun GoPdfDoc GoPdfTree GoPdfState GoPdfKeep GoPdfView GoPdfSetSpec GoPdfFonts GoPdfChain GoPdfPict GoPdfCallSpec GoPdfCalls GoPdfSaveSpec.
Open Scope Z_scope.
Open Scope list_scope.

(** ** Fonts *)

Definition font_saves (f : gfont) : Prop :=
  (forall g, In g (map snd (gf_map f)) -> exists w, glyph_width (gf_ttf f) g = Ok w) /\ exists p, make_font (gf_ttf f) (gf_beyond f) (gf_map f) = Ok p.
Lemma fit_saves : forall d n t beyond m, complete_font d beyond n -> parseTtf d = Ok t -> within n m ->
  (forall g, In g (map snd m) -> exists w, glyph_width t g = Ok w) /\ exists p, make_font t beyond m = Ok p.
Proof.
  intros d n t beyond m C P W. pose proof (cf_sound _ _ _ C) as S. pose proof (sf_bytes _ _ S) as Hb. pose proof (parse_ok _ _ Hb P) as Pd.
  assert (In0 : forall g, In g (map snd m) -> 0 <= g < n) by (intros g Hg; apply in_map_iff in Hg; destruct Hg as ((r & g') & <- & Hg); apply (W r g' Hg)).
  split.
  - intros g Hg. apply In0 in Hg. destruct (cf_widths _ _ _ C g Hg) as (w & A). destruct (cf_units _ _ _ C) as (u & U & Pu). exists (w * 1000 / u). apply (glyph_width_ok d); auto. lia.
  - assert (D0 : forall g, 0 <= g < n -> exists o, outline d g o) by (intros g Hg; destruct (sf_shape _ _ S g Hg) as (o & Ho & _); eauto).
    apply (make_font_total d); auto.
    + apply Forall_forall. intros g Hg. apply (sf_shape _ _ S). apply In0. exact Hg.
    + apply D0. pose proof (cf_some _ _ _ C). lia.
    + intros v o c Hv Ho Hc. apply D0. split; [|eapply (sf_parts _ _ S); eauto]. eapply component_range; [|exact Hc]. eapply outline_bytes; eauto.
    + apply (cf_tables _ _ _ C).
Qed.
Definition comes_from (t : trace) (f : gfont) : Prop :=
  exists q fam k st d, In (q, AddFont fam k st (Some d) (gf_beyond f), None) t /\ parseTtf d = Ok (gf_ttf f).
Lemma from_more : forall t x f, comes_from t f -> comes_from (t ++ [x]) f.
Proof. intros t x f (q & fam & k & st & d & I & P). exists q, fam, k, st, d. split; [apply in_app_iff; left; exact I|exact P]. Qed.
Lemma from_run : forall rnd cfg w g0 t g, g_start rnd cfg gp0 = Ok g0 -> runs w g0 t g -> Forall (comes_from t) (g_fonts g).
Proof.
  intros rnd cfg w g0 t g S R. pose proof (inv_start _ _ _ S) as V0. induction R as [|t g c g' e R IH Sc].
  - destruct (start_small _ _ _ S) as (-> & _). constructor.
  - pose proof (inv_run _ _ _ _ _ V0 R) as Vi. destruct (step_small _ _ _ _ _ (inv_proc _ _ _ Vi) Sc) as (_ & Y & _).
    assert (M : Forall (comes_from (t ++ [(g, c, e)])) (g_fonts g)) by (eapply Forall_impl; [intros f; apply from_more|exact IH]).
    assert (X : forall n h, (forall f, gf_ttf (h f) = gf_ttf f /\ gf_beyond (h f) = gf_beyond f) -> Forall (comes_from (t ++ [(g, c, e)])) (set_nth n h (g_fonts g))).
    { intros n h Hh. clear - M Hh. revert n. induction M as [|f fs Hf M IH]; intros [|n]; cbn [set_nth]; constructor; auto.
      destruct (Hh f) as (E1 & E2). unfold comes_from in *. rewrite E1, E2. exact Hf. }
    destruct c; cbn [fonts_next] in Y; try (rewrite Y; exact M); try (destruct Y as (n & f & _ & _ & ->); apply X; intros f0; split; reflexivity).
    + destruct e; [rewrite Y; exact M|]. destruct Y as (d & tt & k & n & cid & uni & -> & Ep & _ & ->). apply Forall_app. split; [exact M|]. constructor; [|constructor].
      exists g, family, kerning, style, d. cbn [gf_beyond gf_ttf]. split; [apply in_app_iff; right; left; reflexivity|exact Ep].
    + destruct e; [rewrite Y; exact M|]. destruct Y as (n & ->). apply X. intros f0; split; reflexivity.
Qed.
Lemma fonts_save : forall rnd cfg w g0 t g, g_start rnd cfg gp0 = Ok g0 -> runs w g0 t g -> fit_fonts t -> Forall font_saves (g_fonts g).
Proof.
  intros rnd cfg w g0 t g S R F. pose proof (from_run _ _ _ _ _ _ S R) as C. pose proof (sd_maps _ _ _ (steady_run _ _ _ _ _ _ S R)) as MG. unfold maps_good in MG.
  rewrite Forall_forall in C, MG. apply Forall_forall. intros f Hf. destruct (C f Hf) as (q & fam & k & st & d & I & P). destruct (F _ _ _ _ _ _ I) as (n & Cf & Lt).
  apply (fit_saves d n); [exact Cf|exact P|]. intros r g1 Hg. destruct (MG f Hf) as (_ & G). rewrite Forall_forall in G. specialize (G _ Hg). cbn [fst snd] in G. split; [|eapply Lt; eauto].
  eapply glyph_pos; [exact (sf_bytes _ _ (cf_sound _ _ _ Cf))|exact P|exact G].
Qed.

(** ** Objects *)

(** No palette, and fonts of the document. *)
Definition sits (n : nat) (k : gkind) : Prop :=
  match k with KUnicode m _ | KDict m _ | KDesc m _ | KCid m _ | KFont m => (m < n)%nat | KRgb _ => False | _ => True end.
Lemma sits_more : forall n m l, (n <= m)%nat -> Forall (sits n) l -> Forall (sits m) l.
Proof. intros n m l H F. eapply Forall_impl; [|exact F]. intros k K. unfold sits in *. destruct k; auto; lia. Qed.
Lemma others_sit : forall n l, others l -> Forall (sits n) l.
Proof. intros n l H. eapply Forall_impl; [|exact H]. intros k K. destruct k; try contradiction; exact Logic.I. Qed.
Lemma blank_sit : forall n l, blank_content l -> Forall (sits n) l.
Proof. intros n l [->| ->]; repeat constructor. Qed.
Lemma set_sit : forall n i k l, sits n k -> Forall (sits n) l -> Forall (sits n) (set_nth i (fun _ => k) l).
Proof. intros n i k l K F. revert i. induction F as [|x l Hx F IH]; intros [|i]; cbn [set_nth]; constructor; auto. Qed.
Lemma palette_prefix : forall w t x, no_palette w (t ++ [x]) -> no_palette w t.
Proof. intros w t x H p Hp. apply H. destruct (pictures_grow t x) as (l & ->). apply in_app_iff. left. exact Hp. Qed.
Lemma sits_run : forall rnd cfg w g0 t g, g_start rnd cfg gp0 = Ok g0 -> runs w g0 t g -> no_palette w t -> Forall (sits (List.length (g_fonts g))) (V g).
Proof.
  intros rnd cfg w g0 t g S R. pose proof (inv_start _ _ _ S) as V0. induction R as [|t g c g' e R IH Sc]; intros NP.
  - unfold g_start in S. cbv zeta in S. cbn [addObj] in S. match type of S with bind ?e _ = _ => destruct e as [p| | |]; cbn [bind] in S; try discriminate end. injection S as <-.
    unfold V. cbn [g_objs g_fonts app map o_kind new_obj view]. repeat (constructor; [exact Logic.I|]). constructor.
  - specialize (IH (palette_prefix _ _ _ NP)). pose proof (inv_run _ _ _ _ _ V0 R) as Vi. destruct (iv_cfg _ _ _ Vi) as (_ & _ & EP & _). pose proof (step_view _ _ _ _ _ EP (inv_three _ _ _ Vi) Sc) as X.
    destruct (step_small _ _ _ _ _ (inv_proc _ _ _ Vi) Sc) as (_ & Y & _). pose proof (fonts_len _ _ _ _ Y) as L. apply (sits_more _ (List.length (g_fonts g'))) in IH; [|lia].
    assert (P : plainly g g' -> Forall (sits (List.length (g_fonts g'))) (V g')). { intros (l & -> & O). apply Forall_app. split; [exact IH|apply others_sit; exact O]. }
    unfold view_next in X. destruct c; try (apply P; exact X); destruct e; try (apply P; exact X).
    + destruct X as (d & tf & kp & rs & xs & _ & _ & _ & N & X). cbv zeta in X. destruct X as (_ & -> & _). cbn [nfont] in L. apply Forall_app. split; [apply set_sit; [exact Logic.I|exact IH]|].
      repeat (constructor; [cbn [sits]; lia|]). constructor.
    + destruct (find _ _) as [z|] eqn:Ef.
      { destruct X as (l & -> & Bl). apply Forall_app. split; [exact IH|apply blank_sit; exact Bl]. }
      destruct X as (info & rs & xs & l & info' & rgb & tail & Pi & N & X). cbv zeta in X. destruct X as (Bl & -> & _ & Fm).
      assert (NC : colspace info <> B"Indexed").
      { apply (NP (id, data, beyond)); [|exact Pi]. rewrite pictures_snoc. unfold picture_step. cbn [fst snd]. destruct (existsb _ _) eqn:E; [|apply in_app_iff; right; left; reflexivity].
        apply (find_named _ _ _ (ld_names _ _ _ (laid_run _ _ _ _ _ _ S R))) in E. destruct E as (z & E). congruence. }
      apply Forall_app. split; [apply set_sit; [exact Logic.I|exact IH]|]. constructor; [exact Logic.I|]. apply Forall_app. split; [apply blank_sit; exact Bl|].
      destruct (Fm NC) as (_ & F2). destruct (createSMask info); destruct F2 as (_ & ->); repeat constructor.
Qed.

(** ** Writing *)
Lemma enc_saves : forall p id d a, exists s, enc_stream p id d a = Ok s.
Proof.
  intros [p|] id d a; [|exists d; reflexivity]. unfold enc_stream, objectkey.
  match goal with |- context [rc4 (firstn 10 (md5 ?k)) ?x] => destruct (rc4_ok 10 k x ltac:(lia)) as (c & ->) end. cbn [bind]. eauto.
Qed.
Lemma widths_save : forall t gs, (forall g, In g gs -> exists w, glyph_width t g = Ok w) -> exists l, w_array t gs = Ok l.
Proof.
  intros t. induction gs as [|g gs IH]; intros H; cbn [w_array]; [eauto|]. destruct (H g (or_introl eq_refl)) as (w & ->). destruct IH as (l & ->); [intros; apply H; right; assumption|]. cbn [bind]. eauto.
Qed.
Lemma caches_save : forall fs l, Forall (known (List.length fs)) l -> exists s, caches_stream fs l = Ok s.
Proof.
  intros fs l F. induction F as [|c l Hc F (s & IH)]; cbn [caches_stream]; [eauto|]. rewrite IH.
  assert (X : exists a, cache_stream fs c = Ok a). { destruct c; cbn [cache_stream]; eauto. cbn [known] in Hc. destruct (nth_error fs _) as [f|] eqn:E; [eauto|]. apply nth_error_None in E. lia. }
  destruct X as (a & ->). cbn [bind]. eauto.
Qed.
Lemma build1_saves : forall w g l id k, Forall font_saves (g_fonts g) -> sits (List.length (g_fonts g)) (view k) -> knows (List.length (g_fonts g)) k -> exists b k' l', build1 w g l id k = Ok (b, k', l').
Proof.
  intros w g l id k F S K. rewrite Forall_forall in F.
  assert (Fo : forall n, (n < List.length (g_fonts g))%nat -> exists f, nth_error (g_fonts g) n = Some f /\ font_saves f).
  { intros n Hn. destruct (nth_error (g_fonts g) n) as [f|] eqn:E; [|apply nth_error_None in E; lia]. exists f. split; [reflexivity|]. apply F. eapply nth_error_In; eauto. }
  destruct k; cbn [build1 view sits knows] in *; try contradiction; eauto;
    try (destruct (Fo _ S) as (f & -> & (W & p' & M)); cbn [bind]; eauto).
  - destruct (caches_save _ _ K) as (s & ->). cbn [bind]. unfold content_build. cbv zeta. match goal with |- context [enc_stream ?p ?i ?d ?a] => destruct (enc_saves p i d a) as (e & ->) end. cbn [bind]. eauto.
  - unfold unicode_build. match goal with |- context [enc_stream ?p ?i ?d ?a] => destruct (enc_saves p i d a) as (e & ->) end. cbn [bind]. eauto.
  - unfold dict_build. rewrite M. cbn [bind]. cbv zeta. match goal with |- context [enc_stream ?p ?i ?d ?a] => destruct (enc_saves p i d a) as (e & ->) end. cbn [bind]. eauto.
  - unfold cid_obj. destruct (widths_save _ _ W) as (x & ->). cbn [bind]. eauto.
  - unfold img_build. match goal with |- context [enc_stream ?p ?i ?d ?a] => destruct (enc_saves p i d a) as (e & ->) end. cbn [bind]. eauto.
  - unfold img_build. match goal with |- context [enc_stream ?p ?i ?d ?a] => destruct (enc_saves p i d a) as (e & ->) end. cbn [bind]. eauto.
Qed.
Lemma loop_saves : forall w g todo id l buf offs done, Forall (fun o => forall l id, exists b k' l', build1 w g l id (o_kind o) = Ok (b, k', l')) todo ->
  exists os l' buf' offs', build_loop w g todo id l buf offs done = Ok (os, l', buf', offs').
Proof.
  intros w g todo id l buf offs done F. revert id l buf offs done. induction F as [|o todo Ho F IH]; intros id l buf offs done; cbn [build_loop]; [eauto 6|].
  destruct (Ho l id) as (b & k' & l' & ->). cbn [bind]. apply IH.
Qed.

(** ** prepare *)
Definition shape (k : gkind) : Z := match k with KPages _ _ => 1 | KPage _ _ _ => 2 | _ => 0 end.
Definition shapes (os : list gobj) : list Z := map (fun o => shape (o_kind o)) os.
Lemma put_shape : forall g i k k0, kind_at g i = Ok k0 -> shape k = shape k0 -> shapes (g_objs (put_kind g i k)) = shapes (g_objs g).
Proof.
  intros g i k k0 K E. apply kind_at_nth in K. destruct K as (o & N & Ko & _). unfold put_kind, shapes. cbn [g_objs g_set_objs]. rewrite (map_set_nth _ _ _ _ (fun _ => shape k)) by reflexivity.
  apply set_nth_id. rewrite nth_error_map, N. cbn [option_map]. rewrite Ko, E. reflexivity.
Qed.
Lemma shape_kind : forall g i s, 0 <= i -> nth_error (shapes (g_objs g)) (Z.to_nat i) = Some s -> exists k, kind_at g i = Ok k /\ shape k = s.
Proof.
  intros g i s P N. unfold shapes in N. rewrite nth_error_map in N. destruct (nth_error (g_objs g) (Z.to_nat i)) as [o|] eqn:E; cbn [option_map] in N; [|discriminate]. injection N as <-.
  exists (o_kind o). split; [|reflexivity]. unfold kind_at, at_. destruct (Z.ltb_spec i 0); [lia|]. rewrite E. reflexivity.
Qed.
Lemma prep_saves : forall os todo done cur g, os = done ++ todo -> shapes (g_objs g) = shapes os -> nth_error (shapes os) 1 = Some 1 ->
  (cur = -1 \/ 0 <= cur /\ nth_error (shapes os) (Z.to_nat cur) = Some 2) -> exists g', prep_loop todo (Z.of_nat (List.length done)) 1 cur g = Ok g'.
Proof.
  intros os. induction todo as [|o todo IH]; intros done cur g Eo Es P C; cbn [prep_loop]; [eauto|].
  assert (Hn : nth_error os (List.length done) = Some o) by (rewrite Eo, nth_error_app2, Nat.sub_diag by lia; reflexivity).
  assert (Eo' : os = (done ++ [o]) ++ todo) by (rewrite <- app_assoc; exact Eo).
  assert (Ei : Z.of_nat (List.length done) + 1 = Z.of_nat (List.length (done ++ [o]))) by (rewrite app_length; cbn [List.length]; lia). rewrite Ei.
  destruct (o_kind o) eqn:Ek; try (apply IH; assumption).
  - destruct (shape_kind g 1 1 ltac:(lia)) as (k & Kk & Sk); [rewrite Es; exact P|]. rewrite Kk. cbn [bind]. destruct k; try discriminate. apply IH; [exact Eo'| |exact P|].
    + rewrite <- Es. eapply put_shape; [exact Kk|reflexivity].
    + right. split; [lia|]. rewrite Nat2Z.id. unfold shapes. rewrite nth_error_map, Hn. cbn [option_map]. rewrite Ek. reflexivity.
  - destruct (Z.eqb_spec cur (-1)) as [->|Nc]; [apply IH; auto|]. destruct C as [C|(C1 & C2)]; [contradiction|].
    destruct (shape_kind g cur 2 C1) as (k & Kk & Sk); [rewrite Es; exact C2|]. rewrite Kk. cbn [bind]. destruct k; try discriminate. apply IH; [exact Eo'| |exact P|right; auto].
    rewrite <- Es. eapply put_shape; [exact Kk|reflexivity].
Qed.
Lemma prot_run : forall rnd cfg w g0 t g, g_start rnd cfg gp0 = Ok g0 -> runs w g0 t g -> cfg_use cfg = true -> exists p, g_prot g = Some p.
Proof.
  intros rnd cfg w g0 t g S R U. pose proof (inv_start _ _ _ S) as V0. induction R as [|t g c g' e R IH Sc].
  - unfold g_start in S. cbv zeta in S. cbn [addObj] in S. rewrite U in S. destruct (setProtection _ _ _ _); cbn [bind] in S; try discriminate; injection S as <-; eexists; reflexivity.
  - destruct (step_small _ _ _ _ _ (inv_proc _ _ _ (inv_run _ _ _ _ _ V0 R)) Sc) as (_ & _ & -> & _). exact IH.
Qed.

Theorem saves : forall rnd cfg w g0 t g, g_start rnd cfg gp0 = Ok g0 -> runs w g0 t g -> fit_fonts t -> no_palette w t -> exists g' F, g_bytes w g = Ok (g', F).
Proof.
  intros rnd cfg w g0 t g S R Ff NP. pose proof (inv_run _ _ _ _ _ (inv_start _ _ _ S) R) as Vi. destruct (iv_cfg _ _ _ Vi) as (Ec & Ep & _).
  assert (Pr : exists g1, g_prepare g = Ok g1).
  { unfold g_prepare. assert (X : exists os, os = with_enc g /\ (if cfg_use (g_cfg g) then match g_prot g with Some p => Ok (fst (addObj g (KEncrypt p))) | None => Panic end else Ok g) = Ok (g_set_objs g os)).
    { eexists. split; [reflexivity|]. unfold with_enc. rewrite Ec. destruct (cfg_use cfg) eqn:U.
      - destruct (prot_run _ _ _ _ _ _ S R U) as (p & ->). reflexivity.
      - rewrite app_nil_r. destruct g; reflexivity. }
    destruct X as (os & Eo & ->). cbn [bind g_pages g_set_objs]. rewrite Ep. change (1 =? -1) with false. cbv iota.
    assert (S1 : nth_error (shapes os) 1 = Some 1). { rewrite Eo. unfold with_enc. destruct (iv_objs _ _ _ Vi) as (fs & xs & rest & -> & _). reflexivity. }
    destruct (shape_kind (g_set_objs g os) 1 1 ltac:(lia) S1) as (k & -> & Sk). cbn [bind]. destruct k; try discriminate. apply (prep_saves os os [] (-1)); auto. }
  destruct Pr as (g1 & Pr). unfold g_bytes, compile. rewrite Pr. cbn [bind]. destruct (prepared _ _ _ _ Vi Pr) as (E1 & _ & _).
  pose proof (fonts_save _ _ _ _ _ _ S R Ff) as Fs. pose proof (sits_run _ _ _ _ _ _ S R NP) as St. pose proof (known_run _ _ _ _ _ _ S R) as Kn. unfold texts_known, all_known in Kn.
  assert (Ef : g_fonts g1 = g_fonts g) by (rewrite E1; reflexivity). assert (Eo : g_objs g1 = mapi (linked 1 (scan (with_enc g))) 0 (with_enc g)) by (rewrite E1; reflexivity). clear E1 Pr.
  assert (Al : Forall (fun o => forall l id, exists b k' l', build1 w g1 l id (o_kind o) = Ok (b, k', l')) (g_objs g1)).
  { apply Forall_forall. intros o Ho. rewrite Eo in Ho. apply In_nth_error in Ho. destruct Ho as (m & Hm). rewrite nth_mapi in Hm. destruct (nth_error (with_enc g) m) as [o0|] eqn:E0; cbn [option_map] in Hm; [|discriminate]. injection Hm as <-.
    assert (K0 : sits (List.length (g_fonts g)) (view (o_kind o0)) /\ knows (List.length (g_fonts g)) (o_kind o0)).
    { apply nth_error_In in E0. unfold with_enc in E0. apply in_app_iff in E0. destruct E0 as [E0|E0].
      - rewrite Forall_forall in St, Kn. split; [|apply Kn; exact E0]. apply St. unfold V. apply in_map_iff. exists o0. split; [reflexivity|exact E0].
      - destruct (cfg_use (g_cfg g)); [|destruct E0]. destruct (g_prot g); [|destruct E0]. destruct E0 as [<-|[]]. split; exact Logic.I. }
    destruct K0 as (K1 & K2). intros l id. apply build1_saves; rewrite Ef; [exact Fs| |].
    - unfold linked. cbn [o_kind]. destruct (o_kind o0); try exact K1. destruct (_ =? _); exact Logic.I.
    - unfold linked. cbn [o_kind]. destruct (o_kind o0); try exact K2. destruct (_ =? _); exact Logic.I. }
  destruct (loop_saves w g1 (g_objs g1) 1 (u_l (g_cur g1)) pdf_header [] [] Al) as (os & l' & buf & offs & ->). cbn [bind]. eauto.
Qed.

(** With a palette there is no file. *)
Theorem never_saved : forall rnd cfg w g0 t g, g_start rnd cfg gp0 = Ok g0 -> runs w g0 t g -> ~ no_palette w t -> forall g' F, g_bytes w g <> Ok (g', F).
Proof.
  intros rnd cfg w g0 t g S R NP g' F H. apply NP. intros p Hp info P. destruct (picture_first _ _ Hp) as (a & q & x & y & r & b & E & Ne).
  assert (D : document w rnd cfg t F) by (exists g0, g, g'; auto).
  eapply (palette_found _ _ _ _ _ D); [exact E| |exact P]. destruct (runs_split _ _ _ _ R _ _ _ _ _ E) as (q' & Ra & _).
  destruct (find _ _) as [z|] eqn:Ef; [|reflexivity]. assert (existsb (named (fst (fst p))) (pictures a) = true); [|congruence].
  apply (find_named _ _ _ (ld_names _ _ _ (laid_run _ _ _ _ _ _ S Ra))). exists z. exact Ef.
Qed.

(** Reading the document gives what there is as well. *)
Theorem reads : forall rnd cfg w g0 t g n, g_start rnd cfg gp0 = Ok g0 -> runs w g0 t g -> fit_fonts t -> no_palette w t -> exists g' r, g_read w n g = Ok (g', r).
Proof.
  intros rnd cfg w g0 t g n S R Ff NP. destruct (saves _ _ _ _ _ _ S R Ff NP) as (g' & F & H). unfold g_bytes in H. destruct (compile w g) as [g1| | |] eqn:E; cbn [bind] in H; try discriminate.
  unfold g_read. destruct (g_buf g) as [|a b] eqn:Eb; [destruct (g_cap g)|]; rewrite ?E; cbn [bind]; rewrite ?Eb; [eauto| |eauto]. destruct (g_buf g1); eauto.
Qed.
