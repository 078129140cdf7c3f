(** What a font maker's run that ends well has written. *)
From Coq Require Import String List ZArith Lia Bool.
From Coq.Floats Require Import SpecFloat.
From Verif Require Import Base BaseProofs Float64 Ttf TtfSpec TtfProofs TtfTables Subset PdfSyntax PdfSyntaxProofs
  FontMaker FontMakerSpec FontMakerGo FontMakerText FontMakerRead FontMakerMap FontMakerChars RoundReal FontMakerInfo FontMakerDiff.
Open Scope Z_scope.
Open Scope list_scope.

(** ** Entries of a map file *)
Lemma entries_all : forall (Q : Z * bytes -> Prop) s es, map_file s es -> Q (-1, B".notdef") -> (forall c uv n l, entry_line (c, uv, n) l -> Q (uv, n)) -> forall c, Q (code_entry es c).
Proof.
  intros Q s es H. unfold code_entry. generalize (-1, B".notdef"). induction H as [|[[x uv] n] l s es E H IH|[[x uv] n] l s es E H IH]; intros a Qa Qe c; [exact Qa| |];
    cbn [fold_left]; apply IH; try exact Qe; destruct (x =? c); try exact Qa; eapply Qe; exact E.
Qed.
Lemma entry_name : forall s es c, map_file s es -> glyph_name (snd (code_entry es c)).
Proof.
  intros s es c H. apply (entries_all (fun p => glyph_name (snd p)) s es H); [split; [discriminate|reflexivity]|].
  intros x uv n l (h1 & h2 & _ & _ & _ & _ & N & _). exact N.
Qed.
Lemma entry_char : forall s es c, map_file s es -> snd (code_entry es c) <> B".notdef" -> 0 <= fst (code_entry es c).
Proof.
  intros s es c H. apply (entries_all (fun p => snd p <> B".notdef" -> 0 <= fst p) s es H); [intros X; contradiction|].
  intros x uv n l (h1 & h2 & _ & H2 & _) _. destruct (hexadecimal_value _ _ H2) as (_ & V & _). exact V.
Qed.
Lemma map_names : forall s es m, map_file s es -> List.length m = 256%nat -> (forall c, 0 <= c < 256 -> nth_error m (Z.to_nat c) = Some (fm (code_entry es c))) -> Forall (fun f => glyph_name (fm_name f)) m.
Proof.
  intros s es m H L N. apply Forall_forall. intros f Hf. apply In_nth_error in Hf as (k & E). assert (k < 256)%nat by (rewrite <- L; apply nth_error_Some; congruence).
  pose proof (N (Z.of_nat k) ltac:(lia)) as E'. rewrite Nat2Z.id in E'. assert (f = fm (code_entry es (Z.of_nat k))) by congruence. subst f. apply (entry_name s es _ H).
Qed.

(** ** The text of the differences can stand in a string *)
Lemma digits_plain : forall n, quotable (itoa n).
Proof. intros n. apply plain_itoa. Qed.
Lemma name_quotable : forall x, glyph_name x -> quotable x.
Proof. intros x (_ & H). unfold quotable. rewrite forallb_forall in *. intros c Hc. specialize (H c Hc). unfold name_char in H. apply andb_true_iff in H as (H & _). apply andb_true_iff in H as (_ & H). exact H. Qed.
Lemma joined_quotable : forall l, spellable l -> quotable (joined l).
Proof.
  assert (One : forall v l, spellable (v :: l) -> quotable (spell1 v)).
  { intros v l H. destruct v as [k|?|x|?|?|?|?|?]; try contradiction; cbn [spell1]; [apply digits_plain|]. unfold quotable. rewrite forallb_app. apply andb_true_iff. split; [reflexivity|]. apply name_quotable. apply H. }
  assert (Tl : forall v l, spellable (v :: l) -> spellable l).
  { intros v l H. destruct v as [k|?|x|?|?|?|?|?]; try contradiction; [destruct l as [|[] ?]; try contradiction; exact H|apply H]. }
  induction l as [|v l IH]; intros H; [reflexivity|]. destruct l as [|u l]; [exact (One v [] H)|].
  change (joined (v :: u :: l)) with (spell1 v ++ B" " ++ joined (u :: l)). unfold quotable. rewrite !forallb_app. rewrite (One _ _ H), (IH (Tl _ _ H)). reflexivity.
Qed.
Lemma encoding_quotable : forall fms ref, Forall (fun f => glyph_name (fm_name f)) fms -> quotable (font_encoding fms ref).
Proof. intros fms ref G. unfold font_encoding. rewrite diff_spelled, trimmed_text by (apply objs_spellable; exact G). apply joined_quotable. apply objs_spellable. exact G. Qed.

(** ** The names *)
Lemma replace_map : forall s, replace1 32 (B"_") s = no_spaces s.
Proof. induction s as [|c s IH]; [reflexivity|]. unfold no_spaces, replace1 in *. cbn [flat_map map]. rewrite IH. destruct (c =? 32); reflexivity. Qed.
Lemma last_rev_stop : forall a r acc, ~ In 47 a -> last_rev (rev a ++ r) acc = last_rev r (a ++ acc).
Proof.
  intros a. induction a as [|c a IH] using rev_ind; intros r acc H; [reflexivity|]. rewrite rev_app_distr. cbn [rev app last_rev]. destruct (Z.eqb_spec c 47) as [->|N].
  - exfalso. apply H. apply in_app_iff. right. left. reflexivity.
  - rewrite IH by (intros X; apply H; apply in_app_iff; left; exact X). rewrite <- app_assoc. reflexivity.
Qed.
Lemma base_of_path : forall dir x, x <> [] -> ~ In 47 x -> dir = [] \/ (exists q, dir = q ++ B"/") -> path_base (dir ++ x) = x.
Proof.
  intros dir x N S D. unfold path_base. destruct (dir ++ x) as [|c0 r0] eqn:E; [apply app_eq_nil in E as (_ & E); contradiction|]. rewrite <- E. clear c0 r0 E.
  assert (Ds : drop_slashes (rev (dir ++ x)) = rev (dir ++ x)).
  { rewrite rev_app_distr. destruct (rev x) as [|y r] eqn:Ex; [apply (f_equal (@rev Z)) in Ex; rewrite rev_involutive in Ex; contradiction|]. cbn [app drop_slashes].
    destruct (Z.eqb_spec y 47) as [->|_]; [|reflexivity]. exfalso. apply S. apply in_rev. rewrite Ex. left. reflexivity. }
  rewrite Ds, rev_app_distr, last_rev_stop by exact S. rewrite app_nil_r.
  assert (L : last_rev (rev dir) x = x) by (destruct D as [->|(q & ->)]; [reflexivity|rewrite rev_app_distr; reflexivity]). rewrite L. destruct x; [contradiction|reflexivity].
Qed.
Lemma font_base_ok : forall p base, font_path p base -> font_base p = no_spaces base.
Proof.
  intros p base (dir & rest & -> & D & F & R). unfold font_base. rewrite base_of_path; [| |idtac|exact D].
  - assert (E : split1 46 (base ++ B"." ++ rest) = base :: split1 46 rest).
    { apply (split1_word 46 base rest). apply Forall_forall. intros c Hc ->. rewrite forallb_forall in F. specialize (F 46 Hc). discriminate. }
    rewrite E. apply replace_map.
  - intros X. apply app_eq_nil in X as (_ & X). discriminate X.
  - rewrite !in_app_iff. intros [X|[X|X]]; [|destruct X as [X|[]]; discriminate X|exact (R X)]. rewrite forallb_forall in F. specialize (F 47 X). discriminate.
Qed.
Lemma go_name_ok : forall x ty, go_name x = Ok ty -> identifier (capital x) -> ty = capital x.
Proof.
  intros [|c r] ty H (c' & r' & E & Lc & _); [discriminate|]. unfold go_name in H. cbn [capital] in *. destruct ((97 <=? c) && (c <=? 122)); [injection H as <-; reflexivity|].
  assert (c' = c) by congruence. subst c'. destruct (Z.leb_spec 128 c); [unfold letter in Lc; lia|injection H as <-; reflexivity].
Qed.

(** ** The values *)
Theorem info_describes : forall d fms i warns s es s' cp ref encode ty n u, Forall bytep d -> blen d < 4611686018427387904 -> segments_apart d -> units_per_em d u -> 0 < u ->
  map_file s es -> load_map s = Ok fms -> map_file s' cp -> load_map s' = Ok ref -> get_info d fms = Ok (i, warns) ->
  postscript_name d n -> quotable n -> quotable encode -> identifier ty ->
  exists l, go_file (definition_text ty encode i (font_encoding fms ref)) = Some l /\ describes d es cp encode l ty.
Proof.
  intros d fms i warns s es s' cp ref encode ty n u Hb Hl Ap Hu Pu Ms Lm Ms' Lm' G Hn Qn Qe Id.
  destruct (load_map_ok _ _ Ms) as (m1 & E1 & L1 & N1). assert (m1 = fms) by congruence. subst m1. clear E1.
  destruct (load_map_ok _ _ Ms') as (m2 & E2 & L2 & N2). assert (m2 = ref) by congruence. subst m2. clear E2.
  pose proof (map_names _ _ _ Ms L1 N1) as G1.
  unfold get_info in G. apply bind_ok in G as (t & Pt & G). apply bind_ok in G as ([em bold] & Li & G). apply bind_ok in G as (fx & Fx & G). apply bind_ok in G as (nm & Nm & G).
  apply bind_ok in G as (m & Rc & G). destruct (negb em); [discriminate|]. apply bind_ok in G as (w0 & W0 & G). apply bind_ok in G as ([ws wn] & Cw & G).
  pose proof (parse_ok _ _ Hb Pt) as P. pose proof (parse_more _ _ Pt) as M.
  assert (U : forall u', units_per_em d u' -> 0 < u').
  { intros u' H'. replace u' with u; [exact Pu|]. apply (units_ok _ _ _ Hb P) in Hu. apply (units_ok _ _ _ Hb P) in H'. congruence. }
  assert (Eu : exists u', units_per_em d u') by eauto.
  set (r := mul_round (em_scale t)) in *.
  assert (Ei : i = mkInfo nm bold (italicAngle t) fx (r (typoAscender t)) (r (typoDescender t)) (r (underlineThickness t)) (r (underlinePosition t))
        (r (xMin t), r (yMin t), r (xMax t), r (yMax t)) (r (capHeight t)) (r w0) ws) by congruence. clear G.
  destruct (code_widths_ok d t Hb P U Eu m Hl Rc Ap w0 fms ws wn W0 Cw) as (Lw & Nw).
  assert (Name : forall x, postscript_name d x -> nm = filter (fun c => negb (c =? 48)) x) by (intros; eapply psname_ok; eassumption).
  assert (Qnm : quotable nm).
  { rewrite (Name n Hn). unfold quotable in *. rewrite forallb_forall in *. intros c Hc. apply filter_In in Hc as (Hc & _). apply Qn. exact Hc. }
  exists (all_stmts ty encode i (font_encoding fms ref)). split.
  { apply definition_read; [exact Id|subst i; exact Qnm|exact Qe|apply encoding_quotable; exact G1|subst i; cbn [i_widths]; congruence]. }
  constructor.
  - apply type_value.
  - apply enc_value.
  - intros x Hx. rewrite name_value. subst i. cbn [i_name]. f_equal. apply Name. exact Hx.
  - rewrite up_value. eexists. split; [reflexivity|]. subst i. cbn [i_up]. intros; eapply up_ok; eassumption.
  - rewrite ut_value. eexists. split; [reflexivity|]. subst i. cbn [i_ut]. intros; eapply ut_ok; eassumption.
  - intros c C. rewrite width_value by (subst i; cbn [i_widths]; lia). destruct (Nw (Z.to_nat c) _ (N1 c C)) as (w & Ew & A1 & A2). exists w. split.
    + f_equal. subst i. cbn [i_widths]. apply nth_error_nth. exact Ew.
    + unfold code_width. pose proof (entry_char _ _ c Ms) as Ch. destruct (code_entry es c) as [uv x]. cbn [fm fm_name fm_uv fst snd] in *. split; [exact A1|]. intros X Y. apply A2; [exact X|apply Ch; exact X|exact Y].
  - exists (i_asc i), (i_desc i), (i_cap i), (desc_flags i), (r (xMin t)), (r (yMin t)), (r (xMax t)), (r (yMax t)), (i_italic i), (if i_bold i then 120 else 70), (i_missing i).
    assert (Bx := box_ok). specialize (Bx d t). edestruct Bx as (X0 & Y0 & X1 & Y1); try eassumption. clear Bx.
    split; [unfold item_list; cbn [map]; rewrite !item_value by lia; subst i; reflexivity|].
    subst i. cbn [i_asc i_desc i_cap i_italic i_bold i_missing i_fixed].
    split; [intros; eapply asc_ok; eassumption|]. split; [intros; eapply desc_ok; eassumption|]. split; [intros; eapply cap_ok; eassumption|].
    split; [exact X0|]. split; [exact Y0|]. split; [exact X1|]. split; [exact Y1|].
    split; [intros v Hv; eapply italic_ok; eassumption|]. split; [intros v Hv; eapply (width_ok d t); try eassumption; lia|].
    split; [intros v Hv; assert (bold = Z.testbit v 5) as -> by (eapply bold_ok; eassumption); reflexivity|].
    intros f a Hf Ha. unfold desc_flags. cbn [i_fixed i_italic]. assert (fx = negb (f =? 0)) as -> by (eapply fixed_ok; eassumption). assert (italicAngle t = a) as -> by (eapply italic_ok; eassumption). destruct (f =? 0); reflexivity.
  - intros D. exists (font_encoding fms ref). split; [apply diff_value|]. apply encoding_makes; [exact L1|exact L2|exact G1| | |exact D].
    + intros c C. exists (fm (code_entry es c)). split; [apply N1; exact C|reflexivity].
    + intros c C. exists (fm (code_entry cp c)). split; [apply N2; exact C|reflexivity].
Qed.

(** ** The files *)
Lemma stop_ok : forall A files log (r : res A) k o, stop files log r k = o -> o_res o = Ok tt -> exists a, r = Ok a /\ k a = o.
Proof. intros A files log [a|e| |] k o <- H; cbn in H; try discriminate. exists a. split; reflexivity. Qed.
Theorem make_font_ok : forall read write deflate fp mp enc out base d s es s' cp n u,
  font_path fp base -> read fp = Some d -> read (mp ++ B"/" ++ enc ++ B".map") = Some s -> map_file s es -> read (mp ++ B"/cp1252.map") = Some s' -> map_file s' cp ->
  Forall bytep d -> blen d < 4611686018427387904 -> segments_apart d -> units_per_em d u -> 0 < u -> postscript_name d n -> quotable n -> quotable enc ->
  identifier (capital (no_spaces base)) -> o_res (make_font read write deflate fp mp enc out) = Ok tt ->
  exists text l, o_files (make_font read write deflate fp mp enc out) = [(out ++ B"/" ++ no_spaces base ++ B".z", deflate d); (out ++ B"/" ++ no_spaces base ++ B".font.go", text)] /\
    go_file text = Some l /\ describes d es cp enc l (capital (no_spaces base)).
Proof.
  intros read write deflate fp mp enc out base d s es s' cp n u Fp Rd Rs Ms Rs' Ms' Hb Hl Ap Hu Pu Hn Qn Qe Id H.
  remember (make_font read write deflate fp mp enc out) as o eqn:Eo. symmetry in Eo. unfold make_font, file_res in Eo. rewrite Rd, Rs, Rs' in Eo.
  apply stop_ok in Eo as (d' & Ed & Eo); [|exact H]. assert (d' = d) by congruence. subst d'. destruct (negb (beqb (lower (path_ext fp)) (B".ttf"))); [subst o; discriminate|].
  apply stop_ok in Eo as (s2 & Es & Eo); [|exact H]. assert (s2 = s) by congruence. subst s2.
  apply stop_ok in Eo as (fms & Lm & Eo); [|exact H]. apply stop_ok in Eo as ([i warns] & G & Eo); [|exact H]. cbv zeta in Eo.
  apply stop_ok in Eo as ([] & _ & Eo); [|exact H]. apply stop_ok in Eo as (ty & Ty & Eo); [|exact H]. apply stop_ok in Eo as (s2 & Es' & Eo); [|exact H]. assert (s2 = s') by congruence. subst s2.
  apply stop_ok in Eo as (ref & Lm' & Eo); [|exact H]. apply stop_ok in Eo as ([] & _ & Eo); [|exact H].
  rewrite (font_base_ok fp base Fp) in *. apply go_name_ok in Ty; [|exact Id]. subst ty.
  destruct (info_describes d fms i warns s es s' cp ref enc (capital (no_spaces base)) n u Hb Hl Ap Hu Pu Ms Lm Ms' Lm' G Hn Qn Qe Id) as (l & Gl & De).
  exists (definition_text (capital (no_spaces base)) enc i (font_encoding fms ref)), l. split; [subst o; reflexivity|]. split; assumption.
Qed.
