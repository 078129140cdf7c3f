(** When a saved file says that it is encrypted. *)
From Coq Require Import String List ZArith Lia Bool.
From Coq.Floats Require Import SpecFloat.
From Verif Require GoPdfFile.
From Verif Require Import Ttf CharMap Subset Text Wrap Png.
From Verif Require Import Base BaseProofs Output OutputSpec OutputProofs PdfSyntax PdfSyntaxProofs Props PdfData Crawl Inject Crypto Parse Float64 Text Api ApiProofs ApiIds ApiFresh FontObjects PagesProofs SaveLock LockTrailerSpec.
Open Scope Z_scope.
Open Scope list_scope.

(** ** The dictionary *)
Definition trailer_items (n r : Z) (enc : option Z) : list (bytes * pv) :=
  [(B"Size", PInt n); (B"Root", PRef r 0)] ++ match enc with Some e => [(B"Encrypt", PRef e 0); (B"ID", PArr [PStr []; PStr []])] | None => [] end.

Lemma items_read : forall n r enc t, reads (B"<<" ++ [10] ++ B"/Size " ++ itoa n ++ [10] ++ B"/Root " ++ itoa r ++ B" 0 R" ++ [10]
  ++ (match enc with Some e => B"/Encrypt " ++ itoa e ++ B" 0 R" ++ [10] ++ B"/ID [()()]" ++ [10] | None => [] end) ++ B">>" ++ t) (PDict (trailer_items n r enc)) t.
Proof.
  intros n r enc t. apply (reads_dict []); [apply Forall_nil|]. apply entries_skip; [blanks|]. unfold trailer_items.
  change (B"/Size " ++ ?x) with (47 :: B"Size" ++ B" " ++ x). change ([?x; ?y] ++ ?z) with (x :: y :: z).
  apply line_int; [regw|eexists; reflexivity|]. change (B"/Root " ++ ?x) with (47 :: B"Root" ++ B" " ++ x). apply line_ref; [regw|].
  destruct enc as [e|]; [|apply (entries_end []); apply Forall_nil]. rewrite <- !app_assoc.
  change (B"/Encrypt " ++ ?x) with (47 :: B"Encrypt" ++ B" " ++ x). apply line_ref; [regw|].
  change (B"/ID [()()]" ++ [10] ++ ?tl) with (47 :: B"ID" ++ (B" " ++ B"[" ++ B"()()]" ++ [10] ++ tl)).
  eapply line_any; [regw|reflexivity| |apply (entries_end []); apply Forall_nil]. apply reads_arr; [blanks|]. exists 20%nat. reflexivity.
Qed.

Lemma write_entries : forall os last r enc, 0 <= last -> blen (write_file os last r enc) < 10 ^ 10 ->
  trailer_entries (write_file os last r enc) (trailer_items (last + 1) r enc).
Proof.
  intros os last r enc Hl HF. set (body := pdf_header ++ concat (map obj_text os)).
  exists (blen body), (last + 1), (blen body + blen (xref_head last)).
  assert (T : exists t, trailer_text last r enc (blen body) = B"trailer" ++ [10] ++ B"<<" ++ [10] ++ B"/Size " ++ itoa (last + 1) ++ [10] ++ B"/Root " ++ itoa r ++ B" 0 R" ++ [10]
    ++ (match enc with Some e => B"/Encrypt " ++ itoa e ++ B" 0 R" ++ [10] ++ B"/ID [()()]" ++ [10] | None => [] end) ++ B">>" ++ t).
  { unfold trailer_text. eexists. reflexivity. }
  destruct T as (t & T). eexists _, t. split; [apply startxref_thm|]. split; [apply section_thm; lia|]. split; [|apply (items_read (last + 1) r enc t)].
  pose proof (rows_len os last r enc Hl HF) as RL. rewrite F_eq. match type of RL with blen ?x = _ => set (rows := x) in * end. fold body. rewrite T.
  rewrite (app_assoc (xref_head last)), (app_assoc body). clear T.
  match goal with |- skipn ?k (?p ++ ?x) = _ => assert (Ek : k = List.length p); [assert (Ep : blen p = blen body + blen (xref_head last) + 20 * (last + 1)) by (rewrite !blen_app, RL; lia); rewrite <- Ep; unfold blen; apply Nat2Z.id|rewrite Ek] end.
  rewrite skipn_app, skipn_all, Nat.sub_diag. reflexivity.
Qed.
Lemma section_unique : forall F x N b N' b', xref_section F x N b -> xref_section F x N' b' -> N = N' /\ b = b'.
Proof.
  intros F x N b N' b' (d & ND & T & ->) (d' & ND' & T' & ->).
  apply GoPdfFile.text_at_split in T. apply GoPdfFile.text_at_split in T'. destruct T as (r & T). destruct T' as (r' & T'). rewrite T in T'.
  rewrite <- !app_assoc in T'. do 4 apply app_inv_head in T'.
  destruct (GoPdfFile.digits_split _ _ 13 13 _ _ (GoPdfFile.numeral_digits _ _ ND) (GoPdfFile.numeral_digits _ _ ND') eq_refl eq_refl T') as (-> & _).
  split; [eapply GoPdfFile.numeral_unique; eauto|reflexivity].
Qed.
Theorem entries_unique : forall F d d', trailer_entries F d -> trailer_entries F d' -> d = d'.
Proof.
  intros F d d' (x & N & b & s & r & S1 & X & E & R) (x' & N' & b' & s' & r' & S1' & X' & E' & R'). rewrite <- (GoPdfFile.startxref_unique _ _ _ S1 S1') in X'.
  destruct (section_unique _ _ _ _ _ _ X X') as (<- & <-). rewrite E in E'. do 2 apply app_inv_head in E'. subst s'. destruct (reads_unique _ _ _ _ _ R R') as (Y & _). congruence.
Qed.

Lemma entries_only : forall F d, trailer_entries F d -> forall d', trailer_entries F d' <-> d' = d.
Proof. intros F d H d'. split; [intros H'; exact (entries_unique _ _ _ H' H)|intros ->; exact H]. Qed.

(** ** The state *)
Lemma prot_same : forall (s s' : state) (z e : option err), Ok (s, z) = Ok (s', e) -> s_prot s' = s_prot s.
Proof. intros s s' z e H. assert (s' = s) by congruence. subst. reflexivity. Qed.
Lemma insert_prot : forall t pg x y wd h a c s s' e, insert_text t pg x y wd h a c s = Ok (s', e) -> s_prot s' = s_prot s.
Proof.
  intros t pg x y wd h al c s s' e H. unfold insert_text in H. apply bind_ok in H as (ph & _ & H). cbv beta in H.
  destruct (lookup _ _) as [id|]; [|unfold fails in H; eapply prot_same; eauto].
  destruct (nth_error _ id) as [f|]; [|discriminate]. destruct (font_add f t) as [f' r]. cbv zeta in H.
  destruct r; try discriminate; unfold ok, fails in H; injection H as <- _; reflexivity.
Qed.
Lemma lines_prot : forall ls pg x w h al c s s' e, insert_lines ls pg x w h al c s = Ok (s', e) -> s_prot s' = s_prot s.
Proof.
  induction ls as [|[t y] ls IH]; intros pg x w h al c s s' e H; cbn [insert_lines] in H; [unfold ok in H; eapply prot_same; eauto|].
  apply bind_ok in H as ([s1 e1] & E & H). cbn [fst snd] in H. apply insert_prot in E. rewrite <- E.
  destruct e1; [unfold fails in H; eapply prot_same; eauto|]. eauto.
Qed.
Lemma wrap_prot : forall t pg x y w h al c b s s' e, insertWrapText t pg x y w h al c b s = Ok (s', e) -> s_prot s' = s_prot s.
Proof.
  intros t pg x y w h al c b s s' e H. unfold insertWrapText in H. destruct b as [b|]; [|eapply insert_prot; eauto].
  destruct (b t) as [toks| | |]; try discriminate; [|unfold fails in H; eapply prot_same; eauto]. destruct (forallb _ toks); [unfold ok in H; eapply prot_same; eauto|].
  destruct (lookup _ _) as [id|]; [|discriminate]. destruct (nth_error _ id) as [f|]; [|discriminate]. apply bind_ok in H as (ph & _ & H). cbv beta in H.
  destruct (Wrap.wrap_lines _ _ _ _ _ _) as [f0 r]. cbv zeta in H. destruct r as [ls| | |]; try discriminate; [|unfold fails in H; injection H as <- _; reflexivity].
  apply lines_prot in H. exact H.
Qed.
Lemma measure_prot : forall t s s' r, measureTextWidth t s = Ok (s', r) -> s_prot s' = s_prot s.
Proof.
  intros t s s' r H. unfold measureTextWidth in H. destruct (lookup _ _) as [id|]; [|discriminate]. destruct (nth_error _ id) as [f|]; [|discriminate].
  destruct (measure_text _ _ _) as [f' q]. apply bind_ok in H as (ph & _ & H). cbv beta zeta in H. destruct q; try discriminate; injection H as <- _; reflexivity.
Qed.
Lemma image_prot : forall w b i s s' e, new_image w b i s = Ok (s', e) -> s_prot s' = s_prot s.
Proof.
  intros w b i s s' e H. unfold new_image in H. destruct (insertImgObj _ _ _ _ _ _) as [[p d]| | |]; try discriminate; unfold ok, fails in H; injection H as <- _; reflexivity.
Qed.
Lemma place_prot : forall id pg x y w h s s' e, place_image id pg x y w h s = Ok (s', e) -> s_prot s' = s_prot s.
Proof. intros id pg x y w h s s' e H. unfold place_image in H. apply bind_ok in H as (ph & _ & H). unfold ok in H. injection H as <- _. reflexivity. Qed.
Lemma insertImg_prot : forall wd b i pg x y w h s s' e, insertImg wd b i pg x y w h s = Ok (s', e) -> s_prot s' = s_prot s.
Proof.
  intros wd b i pg x y w h s s' e H. unfold insertImg in H. apply bind_ok in H as ([s1 e1] & E & H). cbn [fst snd] in H. apply image_prot in E. rewrite <- E.
  destruct e1; [unfold fails in H; eapply prot_same; eauto|]. eapply place_prot; eauto.
Qed.
Lemma cached_prot : forall wd b i pg x y w h s s' e, insertImgWithCache wd b i pg x y w h s = Ok (s', e) -> s_prot s' = s_prot s.
Proof.
  intros wd b i pg x y w h s s' e H. unfold insertImgWithCache in H. cbv zeta in H. destruct (lookup _ _); [eapply place_prot; eauto|].
  apply bind_ok in H as ([s1 e1] & E & H). cbn [fst snd] in H. apply image_prot in E. rewrite <- E. destruct e1; [unfold fails in H; eapply prot_same; eauto|].
  destruct (s_cache s) as [c|]; [|discriminate]. apply place_prot in H. exact H.
Qed.
Lemma page_prot : forall s o s' e, page_call s o = Ok (s', e) -> s_prot s' = s_prot s.
Proof.
  intros s o s' e H. unfold page_call in H. destruct o as [[p q]| | |]; try discriminate; [injection H as <- _; reflexivity|]. unfold fails in H. eapply prot_same; eauto.
Qed.
Lemma open_prot : forall w fuel raw s s' e, openFrom w fuel raw s = Ok (s', e) -> s_prot s' = s_prot s.
Proof.
  intros w fuel raw s s' e H. unfold openFrom in H. cbv zeta in H. destruct (PDFParse _ _ _ _) as (d, r). destruct r; try discriminate; unfold ok, fails in H; injection H as <- _; reflexivity.
Qed.
Lemma save_prot : forall w fuel ch s s' r, saveTo w fuel ch s = Ok (s', r) -> s_prot s' = s_prot s.
Proof.
  intros w fuel ch s s' r H. unfold saveTo in H. cbv zeta in H.
  destruct (build_fonts _ _ _ _) as [fs1 r1]. destruct r1 as [next|e| |]; try discriminate; [|injection H as <- _; reflexivity].
  destruct (injectFonts _ _ _) as [[p1 idx]|e| |]; try discriminate; [|injection H as <- _; reflexivity].
  set (new := flat_map _ (ch_ord ch [32] _ _)) in H. clearbody new.
  destruct (injectImgs _ _ _) as [[p4 names]|e| |]; try discriminate; [|injection H as <- _; reflexivity].
  set (fs2 := fold_left set_index idx fs1) in *. clearbody fs2. set (b := match new ++ _ with [] => true | _ => ch_room ch end) in H. clearbody b.
  destruct (injectContent _ _ _ _ _ _) as [p5|e| |]; try discriminate; [|destruct b; injection H as <- _; reflexivity].
  remember (s_prot s) as q eqn:Eq. destruct q as [pr|]; [apply bind_ok in H as (os & _ & H)|]; destruct b; injection H as <- _; symmetry; exact Eq.
Qed.

(** A call that sets a protection, and one that does not. *)
Lemma call_prot : forall w fuel c s s' e, call_of w fuel c s = Ok (s', e) -> (protects (c, e) /\ s_prot s' <> None) \/ (~ protects (c, e) /\ s_prot s' = s_prot s).
Proof.
  intros w fuel c s s' e H. destruct c; cbn [call_of] in H; try (right; split; [intros X; exact X|]).
  - eapply open_prot; eauto.
  - unfold addFont in H. destruct (lookup _ _); [unfold fails in H; eapply prot_same; eauto|].
    destruct (match file with Some d => parseTtf d | None => Err EOther end) as [t| | |]; try discriminate; [|unfold fails in H; eapply prot_same; eauto].
    destruct (s_names s) as [ns|]; [|discriminate]. unfold ok in H. injection H as <- _. reflexivity.
  - unfold textriseOverride in H. destruct (lookup _ _) as [id|]; [|unfold fails in H; eapply prot_same; eauto]. unfold ok in H. injection H as <- _. reflexivity.
  - unfold kernOverride in H. destruct (lookup _ _) as [id|]; [|unfold fails in H; eapply prot_same; eauto]. unfold ok in H. injection H as <- _. reflexivity.
  - unfold setFont in H. destruct (lookup _ _); [|unfold fails in H; eapply prot_same; eauto]. unfold ok in H. injection H as <- _. reflexivity.
  - eapply insert_prot; eauto.
  - eapply wrap_prot; eauto.
  - apply bind_ok in H as ([s1 r] & E & H). cbn [fst snd] in H. assert (s' = s1) by congruence. subst. eapply measure_prot; eauto.
  - eapply insertImg_prot; eauto.
  - unfold insertImgBase64 in H. destruct (w_base64 w b64); try discriminate; [|unfold fails in H; eapply prot_same; eauto]. eapply insertImg_prot; eauto.
  - eapply cached_prot; eauto.
  - unfold ok in H. injection H as <- _. reflexivity.
  - eapply page_prot; eauto.
  - eapply page_prot; eauto.
  - eapply page_prot; eauto.
  - unfold setProt in H. destruct (setProtection _ _ _ _) as [p|x| |]; try discriminate; unfold ok, fails in H; injection H as <- <-.
    + left. split; [exact Logic.I|discriminate].
    + right. split; [intros X; exact X|reflexivity].
  - apply bind_ok in H as ([s1 r] & E & H). cbn [fst snd] in H. assert (s' = s1) by congruence. subst. eapply save_prot; eauto.
Qed.
Lemma history_prot : forall w fuel cs s s' log, history w fuel cs s = Ok (s', log) ->
  (s_prot s' <> None <-> s_prot s <> None \/ exists x, In x log /\ protects x).
Proof.
  intros w fuel. induction cs as [|c cs IH]; intros s s' log H; cbn [history] in H.
  - assert (s' = s) by congruence. assert (log = []) by congruence. subst. split; [tauto|]. intros [X|(x & [] & _)]. exact X.
  - apply bind_ok in H as ([s1 e] & E & H). cbn [fst snd] in H. apply bind_ok in H as ([s2 l2] & E2 & H). cbn [fst snd] in H.
    assert (s' = s2) by congruence. assert (log = (c, e) :: l2) by congruence. subst. apply IH in E2. rewrite E2. clear E2 H.
    destruct (call_prot _ _ _ _ _ _ E) as [(P & Q)|(P & Q)].
    + split; [intros _; right; exists (c, e); split; [left; reflexivity|exact P]|intros _; left; exact Q].
    + rewrite Q. split.
      * intros [X|(x & X & Y)]; [left; exact X|right; exists x; split; [right; exact X|exact Y]].
      * intros [X|(x & [<-|X] & Y)]; [left; exact X|contradiction|right; exists x; auto].
Qed.

(** ** The file *)
Theorem saved_trailer : forall w fuel ch cs s log s' F, history w fuel cs new_pdft = Ok (s, log) -> fair (ch_ord ch) -> saveTo w fuel ch s = Ok (s', Ok F) -> blen F < 10 ^ 10 ->
  exists d, (forall d', trailer_entries F d' <-> d' = d) /\ PdfSyntax.lookup (B"Root") d = Some (PRef (root (d_pdf (s_doc s))) 0) /\
    (PdfSyntax.lookup (B"Encrypt") d <> None <-> exists x, In x log /\ protects x).
Proof.
  intros w fuel ch cs s log s' F H Fair Sv HF. destruct (save_shape _ _ _ _ _ _ Sv Fair (reached_names _ _ _ _ _ H)) as (_ & _ & os & last & fresh & EF & _ & _ & Lm & _).
  pose proof (maxID_nonneg (objs (d_pdf (s_doc s)))) as P. rewrite toStream_write in EF. subst F. eexists. split; [apply entries_only, write_entries; [|exact HF]|].
  - unfold saved_last. destruct (option_map _ _); lia.
  - split; [reflexivity|]. pose proof (history_prot _ _ _ _ _ _ H) as Q. destruct (s_prot s) as [pr|]; cbn [option_map saved_enc trailer_items app PdfSyntax.lookup].
    + split; [intros _|discriminate]. destruct (proj1 Q ltac:(discriminate)) as [X|X]; [exfalso; apply X; reflexivity|exact X].
    + split; [intros X; exfalso; apply X; reflexivity|intros X]. exfalso. apply (proj2 Q (or_intror X)). reflexivity.
Qed.
