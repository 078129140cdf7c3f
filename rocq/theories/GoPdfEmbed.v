(** The objects of fonts and pictures in the file. *)
From Coq Require Import String List ZArith Lia Bool.
From Coq.Floats Require Import SpecFloat.
From Verif Require Import Base BaseProofs Utf8 Output OutputSpec Md5Rc4 Crypto CryptoSpec CryptoProofs PdfSyntax PdfSyntaxProofs PdfMore Float64 Ttf TtfSpec TtfProofs TtfTables Subset CharMap InjectNames ApiIds FontObjects FontFinal FontCases Text TextCases Png GoPdf GoPdfSpec GoPdfDrawSpec GoPdfDocSpec GoPdfSetSpec GoPdfResSpec.
From Verif Require Import GoPdfRun GoPdfDoc GoPdfFile GoPdfPages GoPdfRead GoPdfTree GoPdfState GoPdfOut GoPdfMain GoPdfKeep GoPdfView GoPdfFonts GoPdfChain.
Open Scope Z_scope.
Open Scope list_scope.

(** ** The resources *)
Definition font_entry (r : relfont) : bytes * pv := (B"F" ++ itoa (r_count r + 1), PRef (r_obj r + 1) 0).
Fixpoint xobj_entries (xs : list Z) (l : Z) : list (bytes * pv) :=
  match xs with [] => [] | x :: xs => (B"I" ++ itoa (l + 1), PRef (x + 1) 0) :: xobj_entries xs (l + 1) end.
Definition procset_dict (rs : list relfont) (xs : list Z) : list (bytes * pv) :=
  [(B"ProcSet", PArr [PName (B"PDF"); PName (B"Text"); PName (B"ImageB"); PName (B"ImageC"); PName (B"ImageI")]);
   (B"Font", PDict (map font_entry rs)); (B"XObject", PDict (xobj_entries xs 0))].
Lemma word_num : forall c n, regular c = true -> reg_word (c :: itoa n).
Proof. intros c n H. constructor; [exact H|apply itoa_reg]. Qed.
Lemma xobj_read : forall xs l z, reads_entries (xobj_lines xs l ++ B">>" ++ z) (xobj_entries xs l) z.
Proof.
  induction xs as [|x xs IH]; intros l z; cbn [xobj_lines xobj_entries].
  - apply (entries_end []). apply Forall_nil.
  - rewrite <- !app_assoc. apply (line_ref (B"I" ++ itoa (l + 1)) (x + 1)); [apply word_num; reflexivity|apply IH].
Qed.
Lemma fonts_read : forall rs z, reads_entries (flat_map (fun r => B"      /F" ++ itoa (r_count r + 1) ++ B" " ++ itoa (r_obj r + 1) ++ B" 0 R" ++ [10]) rs ++ B">>" ++ z) (map font_entry rs) z.
Proof.
  induction rs as [|r rs IH]; intros z; cbn [flat_map map].
  - apply (entries_end []). apply Forall_nil.
  - rewrite <- !app_assoc. apply (entries_skip (B"      ")); [blanks|]. apply (line_ref (B"F" ++ itoa (r_count r + 1)) (r_obj r + 1)); [apply word_num; reflexivity|apply IH].
Qed.
Lemma procset_reads : forall rs xs z, reads (procset_build rs xs 0 ++ z) (PDict (procset_dict rs xs)) ([10] ++ z).
Proof.
  intros rs xs z. unfold procset_build. rewrite <- !app_assoc. apply (reads_dict []); [apply Forall_nil|]. apply entries_skip; [blanks|].
  match goal with |- reads_entries (B"/ProcSet [/PDF /Text /ImageB /ImageC /ImageI]" ++ [10] ++ ?y) _ _ =>
    apply (line_any (B"ProcSet") (B" [/PDF /Text /ImageB /ImageC /ImageI]" ++ [10] ++ y) _ y); [regw|reflexivity|exists 10%nat; reflexivity|] end.
  match goal with |- reads_entries (B"/Font <<" ++ [10] ++ ?f ++ B">>" ++ [10] ++ ?y) _ _ =>
    apply (line_any (B"Font") (B" " ++ B"<<" ++ [10] ++ f ++ B">>" ++ [10] ++ y) _ y); [regw|reflexivity| |] end.
  { apply (reads_dict (B" ")); [blanks|]. apply entries_skip; [blanks|]. apply fonts_read. }
  match goal with |- reads_entries (B"/XObject <<" ++ [10] ++ ?f ++ B">>" ++ [10] ++ ?y) _ _ =>
    apply (line_any (B"XObject") (B" " ++ B"<<" ++ [10] ++ f ++ B">>" ++ [10] ++ y) _ y); [regw|reflexivity| |] end.
  { apply (reads_dict (B" ")); [blanks|]. apply entries_skip; [blanks|]. apply xobj_read. }
  apply (entries_end []). apply Forall_nil.
Qed.
Lemma numbered_eq : forall c a b, beqb (c :: itoa a) (c :: itoa b) = (a =? b).
Proof.
  intros c a b. destruct (Z.eqb_spec a b) as [->|N]; [apply beqb_eq; reflexivity|]. destruct (beqb _ _) eqn:E; [|reflexivity]. apply beqb_eq in E. injection E as E. apply itoa_inj in E. contradiction.
Qed.
Lemma font_lookup : forall rs i, (forall j r, nth_error rs j = Some r -> r_count r = i + Z.of_nat j) -> forall j r, nth_error rs j = Some r ->
  lookup (B"F" ++ itoa (i + Z.of_nat j + 1)) (map font_entry rs) = Some (PRef (r_obj r + 1) 0).
Proof.
  induction rs as [|r0 rs IH]; intros i H j r N; [destruct j; discriminate|]. cbn [map lookup font_entry]. pose proof (H 0%nat r0 eq_refl) as C0. rewrite C0.
  change (B"F" ++ itoa (i + Z.of_nat 0 + 1)) with (70 :: itoa (i + Z.of_nat 0 + 1)). change (B"F" ++ itoa (i + Z.of_nat j + 1)) with (70 :: itoa (i + Z.of_nat j + 1)). rewrite numbered_eq.
  destruct j as [|j]; [rewrite Z.eqb_refl; injection N as ->; reflexivity|]. destruct (Z.eqb_spec (i + Z.of_nat 0 + 1) (i + Z.of_nat (S j) + 1)); [lia|].
  cbn [nth_error] in N. replace (i + Z.of_nat (S j) + 1) with (i + 1 + Z.of_nat j + 1) by lia. apply (IH (i + 1)); [|exact N].
  intros j' r' N'. rewrite (H (S j') r' N'). lia.
Qed.
Lemma xobj_lookup : forall xs i j x, nth_error xs j = Some x -> lookup (B"I" ++ itoa (i + Z.of_nat j + 1)) (xobj_entries xs i) = Some (PRef (x + 1) 0).
Proof.
  induction xs as [|x0 xs IH]; intros i j x N; [destruct j; discriminate|]. cbn [xobj_entries lookup].
  change (B"I" ++ itoa (i + 1)) with (73 :: itoa (i + 1)). change (B"I" ++ itoa (i + Z.of_nat j + 1)) with (73 :: itoa (i + Z.of_nat j + 1)). rewrite numbered_eq.
  destruct j as [|j]; [replace (i + Z.of_nat 0 + 1) with (i + 1) by lia; rewrite Z.eqb_refl; injection N as ->; reflexivity|]. destruct (Z.eqb_spec (i + 1) (i + Z.of_nat (S j) + 1)); [lia|].
  cbn [nth_error] in N. replace (i + Z.of_nat (S j) + 1) with (i + 1 + Z.of_nat j + 1) by lia. apply (IH (i + 1)). exact N.
Qed.

(** ** The objects *)
Definition plain_kind (k : gkind) : Prop := match k with KPages _ _ | KPage _ _ _ | KContent _ _ => False | _ => True end.
Definition built (w : gworld) (g : gp) (F : bytes) (m : nat) (k : gkind) : Prop :=
  exists lk b kd lk' r, build1 w g lk (1 + Z.of_nat m) k = Ok (b, kd, lk') /\ (m = 2%nat -> lk = 0) /\ object_text F (1 + Z.of_nat m) (b ++ B"endobj" ++ [10] ++ r).
Theorem doc_kinds : forall w rnd cfg t F, document w rnd cfg t F -> blen F < 10 ^ 10 -> exists g0 g, g_start rnd cfg gp0 = Ok g0 /\ runs w g0 t g /\
  forall m k, nth_error (V g) m = Some k -> plain_kind k -> built w g F m k.
Proof.
  intros w rnd cfg t F D Hs. destruct (doc_facts _ _ _ _ _ D) as (g0 & g & bs & info & S & R & Vi & Ei & EF & L & Ep & Es & K).
  exists g0, g. split; [exact S|]. split; [exact R|]. intros m k N P. unfold V in N. rewrite nth_error_map in N. destruct (nth_error (g_objs g) m) as [o|] eqn:En; [|discriminate]. cbn [option_map] in N.
  assert (Ev : view (o_kind o) = k) by congruence. assert (Ek : o_kind o = k). { rewrite <- Ev in P |- *. destruct (o_kind o); try reflexivity; destruct P. }
  destruct (K m o) as (lk & b & kd & lk' & B1 & N1 & H2). { unfold with_enc. rewrite nth_error_app1; [exact En|]. apply nth_error_Some. congruence. }
  assert (El : o_kind (linked 1 (scan (g_objs g)) m o) = k). { rewrite linked_at, Ek. destruct k; try reflexivity; destruct P. }
  rewrite El in B1. assert (OT : exists r, object_text F (1 + Z.of_nat m) (b ++ B"endobj" ++ [10] ++ r)). { rewrite EF in *. apply file_object; assumption. }
  destruct OT as (r & T). exists lk, b, kd, lk', r. auto.
Qed.
Lemma built_dict : forall F id b d r, object_text F id (b ++ B"endobj" ++ [10] ++ r) -> reads b (PDict d) [10] -> object_is F id (PDict d).
Proof. intros F id b d r T H. exists (b ++ B"endobj" ++ [10] ++ r), ([10] ++ B"endobj" ++ [10] ++ r). split; [exact T|]. split; [apply (dict_more _ _ _ _ H)|apply closes_here]. Qed.

(** ** Streams that may be encrypted *)
Lemma enc_raw : forall prot id s after e, 0 <= id -> enc_stream prot id s after = Ok e ->
  exists raw, blen raw = blen s /\ e = raw ++ match prot with None => [] | Some _ => after end /\ decrypted (option_map encryptionKey prot) id raw s.
Proof.
  intros prot id s after e Hid H. destruct prot as [p|]; cbn [enc_stream] in H.
  - destruct (rc4 (objectkey p id) s) as [c| | |] eqn:E; cbn [bind] in H; try discriminate. exists c. split; [unfold blen; rewrite (rc4_len _ _ _ E); reflexivity|]. split; [congruence|].
    cbn [option_map decrypted]. rewrite <- objectkey_spec by exact Hid. apply rc4_twice. exact E.
  - exists s. split; [reflexivity|]. split; [rewrite app_nil_r; congruence|reflexivity].
Qed.
Lemma unicode_built : forall m prot id b, 0 <= id -> unicode_build m prot id = Ok b -> exists d raw, stream_object b d raw /\ decrypted (option_map encryptionKey prot) id raw (unicode_content m) /\ lookup (B"Filter") d = None.
Proof.
  intros m prot id b Hid H. unfold unicode_build in H. destruct (enc_stream prot id (unicode_content m) []) as [e| | |] eqn:E; cbn [bind] in H; try discriminate.
  destruct (enc_raw _ _ _ _ _ Hid E) as (raw & L & Ee & D). assert (Er : e = raw) by (rewrite Ee; destruct prot; apply app_nil_r). subst e. rewrite <- L in H.
  exists [(B"Length", PInt (blen raw))], raw. split; [|split; [exact D|reflexivity]]. rewrite Er in H. clear - H. okeq H.
  eexists _, [10], [], [10]. split; [|split; [|split; [auto|split; [auto|]]]].
  - apply (reads_dict []); [apply Forall_nil|]. apply entries_skip; [blanks|]. apply (last_int (B"Length")). regw.
  - reflexivity.
  - reflexivity.
Qed.
Lemma unicode_stream : forall m, exists d, stream_object (unicode_obj m) d (unicode_content m).
Proof. intros m. destruct (unicode_built m None 0 (unicode_obj m) ltac:(lia) eq_refl) as (d & raw & S & D & _). cbn [option_map decrypted] in D. subst raw. eauto. Qed.
Lemma dict_built : forall w f prot id b, 0 <= id -> dict_build w f prot id = Ok b -> exists p d raw, make_font (gf_ttf f) (gf_beyond f) (gf_map f) = Ok p /\ stream_object b d raw /\
  decrypted (option_map encryptionKey prot) id raw (gw_compress w p) /\ lookup (B"Filter") d = Some (PName (B"FlateDecode")) /\ lookup (B"Length1") d = Some (PInt (blen p)).
Proof.
  intros w f prot id b Hid H. unfold dict_build in H. destruct (make_font _ _ _) as [p| | |] eqn:Em; cbn [bind] in H; try discriminate. cbv zeta in H.
  destruct (enc_stream prot id (gw_compress w p) []) as [e| | |] eqn:E; cbn [bind] in H; try discriminate.
  destruct (enc_raw _ _ _ _ _ Hid E) as (raw & L & Ee & D). assert (Er : e = raw) by (rewrite Ee; destruct prot; apply app_nil_r). subst e. rewrite <- L in H.
  exists p, [(B"Length", PInt (blen raw)); (B"Filter", PName (B"FlateDecode")); (B"Length1", PInt (blen p))], raw. split; [reflexivity|]. split; [|split; [exact D|split; reflexivity]]. rewrite Er in H. clear - H. okeq H.
  exists ([10] ++ B"stream" ++ [10] ++ raw ++ [10] ++ B"endstream" ++ [10]), [10], [10], [10].
  split; [|split; [reflexivity|split; [auto|split; [auto|reflexivity]]]].
  apply (reads_dict []); [apply Forall_nil|].
  apply (line_int (B"Length")); [regw|eexists; reflexivity|].
  apply (line_name (B"Filter") (B"FlateDecode")); [regw|regw|].
  apply (last_int (B"Length1")). regw.
Qed.

(** ** The characters of fonts *)

(** Fonts keep their place, and their maps only grow. *)
Definition keeps (fs fs' : list gfont) : Prop := forall n f, nth_error fs n = Some f -> exists f' k, nth_error fs' n = Some f' /\ skel f' = skel f /\ gf_map f' = gf_map f ++ k.
Lemma keeps_refl : forall fs, keeps fs fs. Proof. intros fs n f H. exists f, []. rewrite app_nil_r. auto. Qed.
Lemma keeps_trans : forall a c d, keeps a c -> keeps c d -> keeps a d.
Proof. intros a c d H K n f E. destruct (H n f E) as (f' & k & E' & S & M). destruct (K n f' E') as (f2 & k2 & E2 & S2 & M2). exists f2, (k ++ k2). split; [exact E2|]. split; [congruence|]. rewrite M2, M, app_assoc. reflexivity. Qed.
Lemma keeps_put : forall fs n h, (forall f, nth_error fs n = Some f -> skel (h f) = skel f /\ exists k, gf_map (h f) = gf_map f ++ k) -> keeps fs (set_nth n h fs).
Proof.
  intros fs n h H m f E. destruct (Nat.eq_dec m n) as [->|Ne].
  - rewrite nth_set, E. destruct (H f E) as (S & k & M). exists (h f), k. auto.
  - rewrite nth_set_other by exact Ne. exists f, []. rewrite app_nil_r. auto.
Qed.
Lemma keeps_next : forall g c e fs, fonts_next g c e fs -> maps_good (g_fonts g) -> keeps (g_fonts g) fs.
Proof.
  intros g c e fs H G. unfold maps_good in G. rewrite Forall_forall in G. destruct c; cbn [fonts_next] in H; try (subst fs; apply keeps_refl);
    try (destruct H as (n & f & _ & _ & ->); apply keeps_put; intros x Nx; split; [reflexivity|]; cbn [gf_map gf_set_map];
         match goal with |- exists k, fst (add_chars ?a ?t ?m) = _ => destruct (add_chars a t m) as (m', o) eqn:E; destruct (add_runes_grows _ _ _ _ _ E (G _ (nth_error_In _ _ Nx))) as (_ & k & Ek & _); exists k; exact Ek end).
  - destruct e; [subst fs; apply keeps_refl|]. destruct H as (d & t & k & n & cid & uni & _ & _ & _ & ->). intros m f E. exists f, []. rewrite app_nil_r. split; [|auto]. apply keeps_app. exact E.
  - destruct e; [subst fs; apply keeps_refl|]. destruct H as (n & ->). apply keeps_put. intros x Nx. split; [reflexivity|]. exists []. rewrite app_nil_r. reflexivity.
Qed.

(** The characters come from texts. *)
Definition spoken (t : trace) (fs : list gfont) : Prop := forall n f r v, nth_error fs n = Some f -> In (r, v) (gf_map f) -> exists x s, In x t /\ call_text (snd (fst x)) = Some s /\ In r (runes s).
Lemma spoken_next : forall g c e fs t, fonts_next g c e fs -> maps_good (g_fonts g) -> spoken t (g_fonts g) -> spoken (t ++ [(g, c, e)]) fs.
Proof.
  intros g c e fs t H G P. unfold maps_good in G. rewrite Forall_forall in G.
  assert (Q : spoken (t ++ [(g, c, e)]) (g_fonts g)). { intros n f r v N I. destruct (P n f r v N I) as (x & s & X1 & X2). exists x, s. split; [apply in_or_app; left; exact X1|exact X2]. }
  assert (T : forall s, call_text c = Some s -> chars_of g s fs -> spoken (t ++ [(g, c, e)]) fs).
  { intros s Hc (n & f & _ & Nf & ->) m f' r v N I. destruct (Nat.eq_dec m n) as [->|Ne].
    - rewrite nth_set, Nf in N. cbn [option_map] in N. assert (f' = gf_set_map f (fst (add_chars (gf_ttf f) s (gf_map f)))) by congruence. subst f'. cbn [gf_map gf_set_map] in I.
      destruct (add_chars (gf_ttf f) s (gf_map f)) as (m', o) eqn:E. cbn [fst] in I. destruct (add_runes_grows _ _ _ _ _ E (G _ (nth_error_In _ _ Nf))) as (_ & k & -> & K). apply in_app_or in I. destruct I as [I|I]; [eapply Q; eauto|].
      exists (g, c, e), s. split; [apply in_or_app; right; left; reflexivity|]. split; [exact Hc|]. exact (K _ I).
    - rewrite nth_set_other in N by exact Ne. eapply Q; eauto. }
  destruct c; cbn [fonts_next] in H; try (subst fs; exact Q); try (eapply T; [reflexivity|exact H]).
  - destruct e; [subst fs; exact Q|]. destruct H as (d & t0 & k & n & cid & uni & _ & _ & _ & ->). intros m f r v N I. destruct (Nat.lt_ge_cases m (List.length (g_fonts g))) as [Lt|Ge].
    + rewrite nth_error_app1 in N by exact Lt. eapply Q; eauto.
    + rewrite nth_error_app2 in N by exact Ge. destruct (m - List.length (g_fonts g))%nat as [|z]; [|destruct z; discriminate]. injection N as <-. destruct I.
  - destruct e; [subst fs; exact Q|]. destruct H as (n & ->). intros m f r v N I. destruct (Nat.eq_dec m n) as [->|Ne].
    + rewrite nth_set in N. destruct (nth_error (g_fonts g) n) as [f0|] eqn:E0; [|discriminate]. injection N as <-. eapply Q; eauto.
    + rewrite nth_set_other in N by exact Ne. eapply Q; eauto.
Qed.

Theorem chars_run : forall rnd cfg w g0 t g, g_start rnd cfg gp0 = Ok g0 -> runs w g0 t g -> maps_good (g_fonts g) /\ spoken t (g_fonts g) /\
  forall a q c e b, t = a ++ (q, c, e) :: b -> exists q', runs w g0 a q /\ gstep w q c = Ok (q', e) /\ keeps (g_fonts q') (g_fonts g).
Proof.
  intros rnd cfg w g0 t g S R. pose proof (inv_start _ _ _ S) as V0. induction R as [|t g c g' e R IH Sc].
  - destruct (start_small _ _ _ S) as (E & _). rewrite E. split; [constructor|]. split; [intros [|n] f r v N; discriminate|]. intros a q c e b E1. destruct a; discriminate.
  - destruct IH as (G & P & X). pose proof (inv_run _ _ _ _ _ V0 R) as Vi. destruct (step_small _ _ _ _ _ (inv_proc _ _ _ Vi) Sc) as (_ & Y & _). split; [eapply maps_next; eauto|]. split; [eapply spoken_next; eauto|].
    intros a q c1 e1 b E. destruct (last_cases _ b) as [->|(b' & y & ->)].
    + apply app_inj_tail in E. destruct E as (<- & E). assert (g = q) by congruence. assert (c = c1) by congruence. assert (e = e1) by congruence. subst. exists g'. split; [exact R|]. split; [exact Sc|apply keeps_refl].
    + rewrite app_comm_cons, app_assoc in E. apply app_inj_tail in E. destruct E as (E & _). destruct (X _ _ _ _ _ E) as (q' & R' & S' & Kp). exists q'. split; [exact R'|]. split; [exact S'|]. eapply keeps_trans; [exact Kp|]. eapply keeps_next; eauto.
Qed.

(** A call of text without an error puts all its characters into the map. *)
Lemma text_adds : forall w q c q' s, gstep w q c = Ok (q', None) -> call_text c = Some s -> maps_good (g_fonts q) -> exists n f f', u_font (g_cur q) = Some n /\ nth_error (g_fonts q) n = Some f /\ nth_error (g_fonts q') n = Some f' /\
  skel f' = skel f /\ forall r, In r (runes s) -> exists v, In (r, v) (gf_map f').
Proof.
  intros w q c q' s H Hc G.
  assert (A : forall g1 n, add_text_chars q s = Ok (g1, n, None) -> exists f f', u_font (g_cur q) = Some n /\ nth_error (g_fonts q) n = Some f /\ nth_error (g_fonts g1) n = Some f' /\ skel f' = skel f /\ forall r, In r (runes s) -> exists v, In (r, v) (gf_map f')).
  { intros g1 n E. unfold add_text_chars in E. destruct (u_font (g_cur q)) as [m|] eqn:Eu; [|discriminate]. destruct (nth_error (g_fonts q) m) as [f|] eqn:En; [|discriminate]. destruct (add_chars (gf_ttf f) s (gf_map f)) as (mm, r0) eqn:Ea.
    destruct r0 as [u| | |]; try discriminate. injection E as <- <-. exists f, (gf_set_map f mm). split; [reflexivity|]. split; [exact En|]. split; [cbn [g_fonts g_set_fonts]; rewrite nth_set, En; reflexivity|]. split; [reflexivity|].
    intros r Hr. unfold maps_good in G. rewrite Forall_forall in G. destruct u. destruct (add_runes_all _ _ _ _ Ea (G _ (nth_error_In _ _ En)) r Hr) as (v & _ & Hv). exists v. apply val_of_in. exact Hv. }
  assert (T : forall cell rect al bo fl, text_call cell rect al bo fl s q = Ok (q', None) -> exists n f f', u_font (g_cur q) = Some n /\ nth_error (g_fonts q) n = Some f /\ nth_error (g_fonts q') n = Some f' /\ skel f' = skel f /\ forall r, In r (runes s) -> exists v, In (r, v) (gf_map f')).
  { intros cell rect al bo fl E. unfold text_call in E. destruct (add_text_chars q s) as [[[g1 n] e1]| | |] eqn:E1; cbn [bind] in E; try discriminate. destruct e1 as [e1|]; [discriminate|].
    destruct (A _ _ eq_refl) as (f & f' & X1 & X2 & X3 & X4). exists n, f, f'. split; [exact X1|]. split; [exact X2|]. split; [|exact X4]. rewrite <- X3. f_equal.
    unfold put_text in E. destruct (getContent g1) as [[[[g2 i] s2] cs]| | |] eqn:Eg; cbn [bind] in E; try discriminate. destruct (getContent_small _ _ _ _ _ Eg) as (S1 & S2 & _).
    match type of E with context [append_text ?a ?b ?c ?d] => destruct (append_text a b c d) as [[[cs' x] y] r] end. destruct r; try discriminate; injection E as <-; cbn [g_fonts g_set_cur put_kind g_set_objs]; exact S2. }
  destruct c; try discriminate; cbn [call_text] in Hc; injection Hc as ->; cbn [gstep] in H; try (eapply T; exact H).
  unfold g_measure in H. destruct (add_text_chars q s) as [[[g1 n] [e1|]]| | |] eqn:E; cbn [bind] in H; discriminate.
Qed.

(** ** An embedded font *)
Lemma doc_key : forall w rnd cfg t F key g0 g, document w rnd cfg t F -> blen F < 10 ^ 10 -> 0 <= cfg_perm cfg < 256 -> (forall i, info_of t = Some i -> simple_info i) ->
  opens F (cfg_user cfg) key -> g_start rnd cfg gp0 = Ok g0 -> runs w g0 t g -> key = option_map encryptionKey (g_prot g).
Proof.
  intros w rnd cfg t F key g0 g D Hs Hp HI HO S R. destruct (kept_run _ _ _ _ _ _ S R) as (Eq & Eg). destruct (doc_opens _ _ _ _ _ D Hs HI) as (P1 & P2).
  apply (key_of F (cfg_user cfg) _ _ HO); [|apply trailer_unique]. rewrite Eq. pose proof (start_prot _ _ _ S Hp) as SP. destruct (cfg_use cfg) eqn:Eu.
  - destruct SP as (p & -> & SP). destruct (P2 eq_refl Hp p SP) as (X & _). exact X.
  - rewrite SP. apply P1. reflexivity.
Qed.
Lemma ok3 : forall A C D (a a' : A) (c c' : C) (d d' : D), Ok (a, c, d) = Ok (a', c', d') -> a' = a. Proof. intros. congruence. Qed.
Lemma font_embedded : forall w inflate F g n f, (forall x, inflate (gw_compress w x) = Ok x) -> (forall m k, nth_error (V g) m = Some k -> plain_kind k -> built w g F m k) ->
  nth_error (g_fonts g) n = Some f -> chained g n f -> plain_name (gf_family f) -> good_map (gf_ttf f) (gf_map f) ->
  exists ws uni prog, embedded_in inflate (option_map encryptionKey (g_prot g)) F (gf_unicode f + 5) (plus_name (gf_family f)) ws uni prog /\
    forall d, parseTtf d = Ok (gf_ttf f) -> font_gives d (gf_map f) ws uni prog.
Proof.
  intros w inflate F g n f Hinf K N (H0 & Hc & C) Pn G. set (u := gf_unicode f) in *.
  assert (BK : forall j k, nth_error (five n u (g_prot g)) j = Some k -> built w g F (Z.to_nat u + j) k).
  { intros j k Hj. apply K; [apply C; exact Hj|]. apply nth_error_In in Hj. cbn in Hj. destruct Hj as [<-|[<-|[<-|[<-|[<-|[]]]]]]; exact Logic.I. }
  destruct (BK 0%nat _ eq_refl) as (l0 & b0 & k0 & l0' & r0 & B0 & _ & T0). destruct (BK 1%nat _ eq_refl) as (l1 & b1 & k1 & l1' & r1 & B1 & _ & T1).
  destruct (BK 2%nat _ eq_refl) as (l2 & b2 & k2 & l2' & r2 & B2 & _ & T2). destruct (BK 3%nat _ eq_refl) as (l3 & b3 & k3 & l3' & r3 & B3 & _ & T3).
  destruct (BK 4%nat _ eq_refl) as (l4 & b4 & k4 & l4' & r4 & B4 & _ & T4). clear BK K C.
  cbn [build1] in B0, B1, B2, B3, B4. rewrite N in B0, B1, B2, B3, B4. cbn [bind] in B0, B1, B2, B3, B4.
  replace (1 + Z.of_nat (Z.to_nat u + 0)) with (u + 1) in * by lia. replace (1 + Z.of_nat (Z.to_nat u + 1)) with (u + 2) in * by lia. replace (1 + Z.of_nat (Z.to_nat u + 2)) with (u + 3) in * by lia.
  replace (1 + Z.of_nat (Z.to_nat u + 3)) with (u + 4) in * by lia. replace (1 + Z.of_nat (Z.to_nat u + 4)) with (u + 5) in * by lia.
  destruct (unicode_build (gf_map f) (g_prot g) (u + 1)) as [c0| | |] eqn:E0; cbn [bind] in B0; try discriminate. assert (c0 = b0) by congruence. subst c0.
  destruct (dict_build w f (g_prot g) (u + 2)) as [c1| | |] eqn:E1; cbn [bind] in B1; try discriminate. assert (c1 = b1) by congruence. subst c1.
  apply ok3 in B2. subst b2.
  destruct (cid_obj (gf_ttf f) (gf_map f) (gf_family f) (u + 2 + 1)) as [c3| | |] eqn:E3; cbn [bind] in B3; try discriminate. assert (c3 = b3) by congruence. subst c3.
  apply ok3 in B4. subst b4. clear B0 B1 B3. rewrite Hc in T4.
  destruct (unicode_built (gf_map f) (g_prot g) (u + 1) b0 ltac:(lia) E0) as (d0 & raw0 & S0 & D0 & F0). destruct (dict_built w f (g_prot g) (u + 2) b1 ltac:(lia) E1) as (p & d1 & raw1 & M1 & S1 & D1 & F1 & L1).
  destruct (cid_obj_reads _ _ _ _ _ Pn E3) as (ws & FW & R3).
  exists (w_items (gf_ttf f) (combine (map snd (gf_map f)) ws)), (unicode_content (gf_map f)), p. split.
  - exists (u + 4), (u + 1), (u + 3), (u + 2), (font_dict (gf_family f) (u + 4) (u + 1)), (cid_dict (gf_ttf f) (gf_family f) (u + 3) (combine (map snd (gf_map f)) ws)), d0, (desc_dict (gf_ttf f) (gf_family f) (u + 2)), d1.
    split. { eapply built_dict; [exact T4|]. replace (u + 3 + 1) with (u + 4) by lia. apply font_obj_reads. exact Pn. }
    split; [reflexivity|]. split; [reflexivity|]. split; [reflexivity|]. split; [reflexivity|]. split; [reflexivity|]. split; [reflexivity|].
    split. { eapply built_dict; [exact T3|]. replace (u + 2 + 1) with (u + 3) in R3 by lia. exact R3. }
    split; [reflexivity|]. split; [reflexivity|]. split; [reflexivity|]. split; [reflexivity|]. split; [reflexivity|].
    split. { exists raw0, (unicode_content (gf_map f)). split; [eexists; split; [exact T0|apply stream_more; exact S0]|]. split; [exact D0|]. rewrite F0. reflexivity. }
    split; [exact F0|].
    split. { eapply built_dict; [exact T2|]. replace (u + 1 + 1) with (u + 2) by lia. apply desc_obj_reads. exact Pn. }
    split; [reflexivity|]. split; [reflexivity|]. split; [reflexivity|].
    split. { exists raw1, (gw_compress w p). split; [eexists; split; [exact T1|apply stream_more; exact S1]|]. split; [exact D1|]. rewrite F1. split; [reflexivity|apply Hinf]. }
    split; [exact F1|exact L1].
  - intros d P Hb Hl. split; [intros r v I; eapply glyph_index_char; eauto; eapply good_fst_in; eauto|]. split.
    + intros r v x y I Hv A U Hy. apply w_items_in; [exact FW|apply (in_map snd) in I; exact I|]. eapply glyph_width_ok; eauto. apply parse_ok; auto.
    + split.
      * intros Hm. destruct (tounicode_entries _ Hm) as (s & l & So & X). exists l. destruct (unicode_stream (gf_map f)) as (d2 & S2). destruct (stream_unique _ _ _ _ _ S2 So) as (_ & ->). exact X.
      * intros k Sd W O L v o Hv Ho Us. exact (proj1 (outlines_kept _ _ _ _ _ _ Sd P W M1 L O v o Hv Ho) Us).
Qed.

Lemma resource_at : forall w g F, (forall m k, nth_error (V g) m = Some k -> plain_kind k -> built w g F m k) -> forall rs xs, nth_error (V g) 2 = Some (KProcSet rs xs) -> object_is F 3 (PDict (procset_dict rs xs)).
Proof.
  intros w g F K rs xs N. destruct (K 2%nat _ N Logic.I) as (lk & b & kd & lk' & r & B1 & H2 & T). rewrite (H2 eq_refl) in B1. cbn [build1] in B1. apply ok3 in B1. subst b.
  exists (procset_build rs xs 0 ++ B"endobj" ++ [10] ++ r), ([10] ++ B"endobj" ++ [10] ++ r). split; [exact T|]. split; [apply procset_reads|apply closes_here].
Qed.
Lemma ldiff_twice : forall a, Z.ldiff (Z.ldiff a 4) 4 = Z.ldiff a 4.
Proof. intros a. apply Z.bits_inj'. intros n Hn. rewrite !Z.ldiff_spec. destruct (Z.testbit a n), (Z.testbit 4 n); reflexivity. Qed.

Theorem doc_fonts : forall w inflate rnd cfg t F key, document w rnd cfg t F -> blen F < 10 ^ 10 -> 0 <= cfg_perm cfg < 256 -> (forall i, info_of t = Some i -> simple_info i) ->
  (forall x, inflate (gw_compress w x) = Ok x) -> opens F (cfg_user cfg) key ->
  forall a q c b s family style size, t = a ++ (q, c, None) :: b -> call_text c = Some s -> s_font (settings_of cfg a) = Some (family, style, size) -> plain_name family ->
  Forall (fun x => af_style x = Z.ldiff (af_style x) 4) (added a) ->
  exists af id ws uni prog m, font_for (added a) family style = Some af /\ resource F (B"Font") (B"F" ++ itoa (u_count (g_cur q) + 1)) id /\
    embedded_in inflate key F id (plus_name family) ws uni prog /\
    (forall r, In r (runes s) -> exists v, In (r, v) m) /\ (forall r v, In (r, v) m -> exists x s', In x t /\ call_text (snd (fst x)) = Some s' /\ In r (runes s')) /\
    font_gives (af_file af) m ws uni prog.
Proof.
  intros w inflate rnd cfg t F key D Hs Hp HI Hinf HO a q c b s family style size Et Hc Sf Pn Hu.
  destruct (doc_kinds _ _ _ _ _ D Hs) as (g0 & g & S & R & K). pose proof (doc_key _ _ _ _ _ _ _ _ D Hs Hp HI HO S R) as ->.
  destruct (chars_run _ _ _ _ _ _ S R) as (G & Sp & X). destruct (X _ _ _ _ _ Et) as (q' & Ra & Sc & Kp). clear X.
  destruct (chars_run _ _ _ _ _ _ S Ra) as (Gq & _ & _). destruct (text_adds _ _ _ _ _ Sc Hc Gq) as (n & f & f' & Un & Nf & Nf' & Sk & All).
  pose proof (font_run _ _ _ _ _ _ S Ra) as FN. unfold font_now in FN. rewrite Sf in FN. destruct FN as (_ & _ & n1 & f1 & af & Un1 & Nf1 & FF & Na & Fst & SF).
  assert (n1 = n) by congruence. subst n1. assert (f1 = f) by congruence. subst f1.
  destruct (Kp _ _ Nf') as (f2 & k & Nf2 & Sk2 & M2). assert (Sk3 : skel f2 = skel f) by congruence.
  pose proof (laid_run _ _ _ _ _ _ S R) as Ld. pose proof (laid_run _ _ _ _ _ _ S Ra) as Ldq.
  destruct (ld_count _ _ _ Ldq n Un) as (f3 & Nf3 & Cn). assert (f3 = f) by congruence. subst f3.
  destruct (ld_rels _ _ _ Ld) as (rs & xs & N2 & Rl & _).
  assert (St : af_family af = family /\ af_style af = Z.ldiff style 4).
  { unfold font_for in FF. apply find_some in FF. destruct FF as (_ & FF). unfold of_style in FF. apply andb_true_iff in FF. destruct FF as (F1 & F2). apply beqb_eq in F1. apply Z.eqb_eq in F2. auto. }
  destruct St as (St1 & St2). destruct SF as (Sf1 & Sf2 & Sf3 & _).
  assert (E2 : gf_family f2 = family /\ gf_style f2 = Z.ldiff style 4 /\ gf_ttf f2 = gf_ttf f /\ gf_count f2 = gf_count f). { unfold skel in Sk3. repeat split; congruence. }
  destruct E2 as (E21 & E22 & E23 & E24).
  destruct (rl_all _ _ _ Rl _ _ Nf2) as (j & r & Nj & Kr). destruct (rl_each _ _ _ Rl _ _ Nj) as (Cj & n0 & f0 & N0 & C0 & O0 & K0 & Mi).
  assert (En : n0 = n).
  { destruct (Nat.lt_trichotomy n0 n) as [Lt|[E|Gt]]; [|exact E|exfalso; exact (Mi _ _ Gt Nf2 Kr)].
    exfalso. assert (Lq : (n < List.length (g_fonts q))%nat) by (apply nth_error_Some; congruence).
    destruct (nth_error (g_fonts q) n0) as [fq|] eqn:Nq; [|apply nth_error_None in Nq; lia].
    assert (Ksq : skel f0 = skel fq).
    { assert (Y : keeps (g_fonts q) (g_fonts q')). { pose proof (inv_run _ _ _ _ _ (inv_start _ _ _ S) Ra) as Vi. destruct (step_small _ _ _ _ _ (inv_proc _ _ _ Vi) Sc) as (_ & Y & _). eapply keeps_next; eauto. }
      destruct (keeps_trans _ _ _ Y Kp _ _ Nq) as (f4 & k4 & N4 & S4 & _). congruence. }
    pose proof (added_run _ _ _ _ _ _ S Ra) as AR. destruct (nth_forall2 _ _ _ _ _ AR _ _ Nq) as (x0 & Nx & Q1 & Q2 & _). specialize (Fst _ _ Lt Nx). rewrite Forall_forall in Hu. specialize (Hu _ (nth_error_In _ _ Nx)).
    destruct Kr as (Kr1 & Kr2). destruct K0 as (K01 & K02). unfold skel in Ksq. assert (gf_family f0 = gf_family fq) by congruence. assert (gf_style f0 = gf_style fq) by congruence.
    unfold of_style in Fst. assert (Y1 : af_family x0 = family) by congruence. assert (Y2 : af_style x0 = Z.ldiff style 4).
    { rewrite Hu. rewrite <- Q2, <- H0. change (no_underline (gf_style f0) = Z.ldiff style 4). rewrite <- K02, Kr2, E22. unfold no_underline. apply ldiff_twice. }
    rewrite Y1, Y2, (proj2 (beqb_eq family family) eq_refl), Z.eqb_refl in Fst. discriminate. }
  subst n0. assert (f0 = f2) by congruence. subst f0.
  destruct (font_embedded w inflate F g n f2 Hinf K Nf2 (ld_fonts _ _ _ Ld _ _ Nf2)) as (ws & uni & prog & Em & Gv); [rewrite E21; exact Pn|unfold maps_good in G; rewrite Forall_forall in G; apply G; eapply nth_error_In; eauto|].
  exists af, (gf_unicode f2 + 5), ws, uni, prog, (gf_map f2). split; [exact FF|]. split.
  { exists (procset_dict rs xs), (map font_entry rs). split; [eapply resource_at; eauto|]. split; [reflexivity|].
    pose proof (font_lookup rs 0 (fun j r H => proj1 (rl_each _ _ _ Rl j r H)) j r Nj) as Lk. rewrite O0 in Lk. replace (gf_unicode f2 + 4 + 1) with (gf_unicode f2 + 5) in Lk by lia.
    replace (u_count (g_cur q) + 1) with (0 + Z.of_nat j + 1) by (rewrite Cn, <- E24, C0; lia). exact Lk. }
  split; [rewrite E21 in Em; exact Em|]. split; [intros r' Hr; destruct (All r' Hr) as (v & Hv); exists v; rewrite M2; apply in_or_app; left; exact Hv|].
  split; [intros r' v Hv; eapply Sp; eauto|]. apply Gv. rewrite E23. exact Sf3.
Qed.
