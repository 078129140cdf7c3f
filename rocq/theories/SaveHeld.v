(** What is drawn has its font and its image, after any history. *)
From Coq Require Import String List ZArith Lia Bool Permutation.
From Coq.Floats Require Import SpecFloat.
From Verif Require Import Base BaseProofs Output OutputProofs Props PdfData PagesProofs Crawl Inject Md5Rc4 Crypto Png Utf8 Float64 Ttf Subset Text Wrap Parse Api ApiSpec ApiProofs ApiIds ApiFrames ApiFresh CharMap SaveCalls.
Open Scope Z_scope.
Open Scope list_scope.

Definition fine (nf ni : nat) (c : contenter) : Prop := match c with CLine _ _ => True | CText id _ => (id < nf)%nat | CImg id _ _ _ _ _ _ => (id < ni)%nat end.
Definition cache_of (s : state) : list (bytes * nat) := match s_cache s with Some c => c | None => [] end.
Record held (s : state) : Prop := mkHeld {
  hd_cont : Forall (fine (List.length (s_fonts s)) (List.length (s_imgs s))) (s_cont s);
  hd_cache : Forall (fun k => (k < List.length (s_imgs s))%nat) (map snd (cache_of s)) }.

Lemma grown_fonts : forall s s', grown s s' -> (List.length (s_fonts s) <= List.length (s_fonts s'))%nat.
Proof.
  intros s s' G. destruct (le_lt_dec (List.length (s_fonts s)) (List.length (s_fonts s'))) as [H|H]; [exact H|]. exfalso.
  destruct (nth_error (s_fonts s) (List.length (s_fonts s'))) as [f|] eqn:E; [|apply nth_error_None in E; lia].
  destruct (gr_old _ _ G _ _ E) as (f' & E' & _). assert (List.length (s_fonts s') < List.length (s_fonts s'))%nat by (apply nth_error_Some; congruence). lia.
Qed.
Lemma grown_imgs : forall s s', grown s s' -> (List.length (s_imgs s) <= List.length (s_imgs s'))%nat.
Proof. intros s s' G. destruct (gr_imgs _ _ G) as (l & E). apply (f_equal (@List.length _)) in E. rewrite app_length, !map_length in E. lia. Qed.
Lemma held_step : forall s s' l, grown s s' -> held s -> s_cont s' = s_cont s ++ l -> Forall (fine (List.length (s_fonts s')) (List.length (s_imgs s'))) l ->
  cache_of s' = cache_of s \/ cache_of s' = [] \/ (exists k, cache_of s' = cache_of s ++ [(k, List.length (s_imgs s))] /\ (List.length (s_imgs s) < List.length (s_imgs s'))%nat) -> held s'.
Proof.
  intros s s' l G (Hc & Ha) E Fl C. pose proof (grown_fonts _ _ G) as G1. pose proof (grown_imgs _ _ G) as G2. split.
  - rewrite E. apply Forall_app. split; [|exact Fl]. eapply Forall_impl; [|exact Hc]. intros [ | | ]; cbn [fine]; intros; lia.
  - assert (Old : Forall (fun k => (k < List.length (s_imgs s'))%nat) (map snd (cache_of s))) by (eapply Forall_impl; [|exact Ha]; cbv beta; intros; lia).
    destruct C as [-> |[-> |(k & -> & Hk)]]; [exact Old|constructor|]. rewrite map_app. apply Forall_app. split; [exact Old|]. constructor; [exact Hk|constructor].
Qed.
Lemma held_still : forall s s', grown s s' -> held s -> s_cont s' = s_cont s -> cache_of s' = cache_of s -> held s'.
Proof. intros s s' G H E C. apply (held_step s s' []); auto. rewrite app_nil_r. exact E. Qed.

Lemma insert_held : forall t pg x y w h al c s s' e, insert_text t pg x y w h al c s = Ok (s', e) -> held s -> held s'.
Proof.
  intros t pg x y w h al c s s' e H Hs. pose proof (insert_grown _ _ _ _ _ _ _ _ _ _ _ H) as G. unfold insert_text in H. apply bind_ok in H as (ph & _ & H).
  destruct (lookup _ _) as [id|]; [|unfold fails in H; assert (s' = s) by congruence; subst; exact Hs].
  destruct (nth_error (s_fonts s) id) as [f|] eqn:E; [|discriminate]. destruct (font_add f t) as [f' r]. cbv zeta in H.
  set (z := CText id _) in H.
  assert (Es : s' = upd_font (with_cont s (s_cont s ++ [z])) id (fun _ => f')) by (destruct r; try discriminate; unfold ok, fails in H; congruence).
  apply (held_step s s' [z] G Hs); subst s'; [reflexivity| |left; reflexivity]. constructor; [|constructor]. unfold z. cbn [fine].
  apply Nat.lt_le_trans with (List.length (s_fonts s)); [apply nth_error_Some; congruence|]. apply (grown_fonts _ _ G).
Qed.
Lemma lines_held : forall ls pg x w h al c s s' e, insert_lines ls pg x w h al c s = Ok (s', e) -> held s -> held s'.
Proof.
  induction ls as [|[t y] ls IH]; intros pg x w h al c s s' e H Hs; cbn [insert_lines] in H; [unfold ok in H; assert (s' = s) by congruence; subst; exact Hs|].
  apply bind_ok in H as ([s1 e1] & E & H). cbn [fst snd] in H. apply insert_held in E; [|exact Hs].
  destruct e1; [unfold fails in H; assert (s' = s1) by congruence; subst; exact E|]. eauto.
Qed.
Lemma place_held : forall id pg x y w h s s' e, place_image id pg x y w h s = Ok (s', e) -> held s -> (id < List.length (s_imgs s))%nat -> held s'.
Proof.
  intros id pg x y w h s s' e H Hs L. pose proof (place_grown _ _ _ _ _ _ _ _ _ H) as G. unfold place_image in H. apply bind_ok in H as (ph & _ & H). unfold ok in H.
  assert (s' = with_cont s (s_cont s ++ [CImg id pg x y w h ph])) by congruence. subst s'. eapply held_step; [exact G|exact Hs|reflexivity| |left; reflexivity]. constructor; [exact L|constructor].
Qed.
Lemma new_held : forall w b i s s' e, new_image w b i s = Ok (s', e) -> held s -> held s' /\ s_cache s' = s_cache s /\ (e = None -> List.length (s_imgs s') = Datatypes.S (List.length (s_imgs s))).
Proof.
  intros w b i s s' e H Hs. pose proof (new_image_grown _ _ _ _ _ _ H) as G. unfold new_image in H. destruct (insertImgObj _ _ _ _ _ _) as [[p d]| | |]; try discriminate; unfold ok, fails in H.
  - assert (Es : s' = with_imgs (with_pdf s p) (s_imgs s ++ [mkImage d [] 0])) by congruence. split; [|split].
    + subst s'. apply (held_still s); auto.
    + subst s'. reflexivity.
    + intros _. subst s'. cbn [with_imgs s_imgs]. rewrite app_length. cbn [List.length]. lia.
  - assert (s' = s) by congruence. subst. split; [exact Hs|]. split; [reflexivity|]. intros ->. discriminate.
Qed.
Lemma img_held : forall wd b i pg x y w h s s' e, insertImg wd b i pg x y w h s = Ok (s', e) -> held s -> held s'.
Proof.
  intros wd b i pg x y w h s s' e H Hs. unfold insertImg in H. apply bind_ok in H as ([s1 e1] & E & H). cbn [fst snd] in H. destruct (new_held _ _ _ _ _ _ E Hs) as (H1 & _ & L).
  destruct e1; [unfold fails in H; assert (s' = s1) by congruence; subst; exact H1|]. eapply place_held; eauto. rewrite (L eq_refl). lia.
Qed.
Lemma cached_held : forall wd b i pg x y w h s s' e, insertImgWithCache wd b i pg x y w h s = Ok (s', e) -> held s -> held s'.
Proof.
  intros wd b i pg x y w h s s' e H Hs. unfold insertImgWithCache in H. cbv zeta in H. destruct (lookup (md5 i) (s_cache s)) as [id|] eqn:El.
  - eapply place_held; eauto. pose proof (hd_cache _ Hs) as Hc. rewrite Forall_forall in Hc. apply Hc. unfold cache_of. unfold lookup in El. destruct (s_cache s) as [c|]; [|discriminate].
    clear - El. induction c as [|[a v] c IH]; cbn [assoc] in El; [discriminate|]. cbn [map snd]. destruct (beqb a (md5 i)); [left; congruence|right; auto].
  - apply bind_ok in H as ([s1 e1] & E & H). cbn [fst snd] in H. destruct (new_held _ _ _ _ _ _ E Hs) as (H1 & Ec & L).
    destruct e1; [unfold fails in H; assert (s' = s1) by congruence; subst; exact H1|]. destruct (s_cache s) as [c|] eqn:Es; [|discriminate].
    eapply place_held; [exact H| |cbn [with_cache s_imgs]; rewrite (L eq_refl); lia]. destruct H1 as (A & C). split; cbn [with_cache s_fonts s_imgs s_cont]; [exact A|].
    unfold cache_of in *. cbn [with_cache s_cache]. rewrite Ec in C. rewrite map_app. apply Forall_app. split; [exact C|]. constructor; [cbn [snd]; rewrite (L eq_refl); lia|constructor].
Qed.
Lemma open_held : forall w fuel raw s s' e, openFrom w fuel raw s = Ok (s', e) -> held s -> held s'.
Proof.
  intros w fuel raw s s' e H Hs. unfold openFrom in H. cbv zeta in H. destruct (PDFParse _ _ _ _) as [d r]. destruct r; try discriminate; unfold ok, fails in H.
  - injection H as <- _. destruct Hs as (A & C). split; cbn; [|constructor]. apply Forall_app. split; [exact A|]. constructor; [exact Logic.I|constructor].
  - injection H as <- _. destruct Hs as (A & C). split; cbn; [exact A|constructor].
Qed.
Lemma call_held : forall w fuel c s s' e, call_of w fuel c s = Ok (s', e) -> held s -> held s'.
Proof.
  intros w fuel c s s' e H Hs. pose proof (call_grown _ _ _ _ _ _ H) as G.
  assert (R : forall z, Ok (s, z) = Ok (s', e) -> held s') by (intros z X; assert (s' = s) by congruence; subst; exact Hs).
  destruct c; cbn [call_of] in H.
  - eapply open_held; eauto.
  - unfold addFont in H. destruct (lookup _ _); [unfold fails in H; eauto|].
    destruct (match file with Some d => parseTtf d | None => Err EOther end) as [t| | |]; try discriminate; [|unfold fails in H; eauto].
    destruct (s_names s) as [ns|]; [|discriminate]. unfold ok in H. injection H as <- _. apply (held_still s); auto.
  - unfold textriseOverride in H. destruct (lookup _ _) as [id|]; [|unfold fails in H; eauto]. unfold ok in H. injection H as <- _. apply (held_still s); auto.
  - unfold kernOverride in H. destruct (lookup _ _) as [id|]; [|unfold fails in H; eauto]. unfold ok in H. injection H as <- _. apply (held_still s); auto.
  - unfold setFont in H. destruct (lookup _ _); [|unfold fails in H; eauto]. unfold ok in H. injection H as <- _. apply (held_still s); auto.
  - eapply insert_held; eauto.
  - unfold insertWrapText in H. destruct breaker as [b|]; [|eapply insert_held; eauto]. destruct (b text) as [toks| | |]; try discriminate; [|unfold fails in H; eauto].
    destruct (forallb _ toks); [unfold ok in H; eauto|]. destruct (lookup _ _) as [id|]; [|discriminate]. destruct (nth_error (s_fonts s) id) as [f|] eqn:E; [|discriminate].
    apply bind_ok in H as (ph & _ & H). destruct (wrap_lines _ _ _ _ _ _) as [f' r] eqn:Ew. cbv zeta in H. apply wrap_texts in Ew.
    assert (Hs' : held (upd_font s id (fun f => set_map f (sf_map f')))) by (apply (held_still s); auto; eapply sized_grown; eauto).
    destruct r; try discriminate; [eapply lines_held; eauto|]. unfold fails in H. injection H as <- _. exact Hs'.
  - apply bind_ok in H as ([s1 r] & E & H). cbn [fst snd] in H. assert (s' = s1) by congruence. subst. unfold measureTextWidth in E. destruct (lookup _ _) as [id|]; [|discriminate].
    destruct (nth_error (s_fonts s) id) as [f|]; [|discriminate]. destruct (measure_text _ _ _) as [f' q]. apply bind_ok in E as (ph & _ & E). cbv zeta in E.
    assert (Es : s1 = upd_font s id (fun f => set_map f (sf_map f'))) by (destruct q; congruence). subst s1. apply (held_still s); auto.
  - eapply img_held; eauto.
  - unfold insertImgBase64 in H. destruct (w_base64 w b64); try discriminate; [|unfold fails in H; eauto]. eapply img_held; eauto.
  - eapply cached_held; eauto.
  - unfold ok in H. injection H as <- _. eapply held_step; [exact G|exact Hs|reflexivity| |left; reflexivity]. constructor; [exact Logic.I|constructor].
  - unfold page_call in H. destruct (removePage _ _ _) as [[p e1]| | |]; try discriminate; [injection H as <- _; apply (held_still s); auto|unfold fails in H; eauto].
  - unfold page_call in H. destruct (removeOtherPages _ _ _) as [[p e1]| | |]; try discriminate; [injection H as <- _; apply (held_still s); auto|unfold fails in H; eauto].
  - unfold page_call in H. destruct (duplicatePageAfter _ _ _ _) as [[p e1]| | |]; try discriminate; [injection H as <- _; apply (held_still s); auto|unfold fails in H; eauto].
  - unfold setProt in H. destruct (setProtection _ _ _ _); try discriminate; [|unfold fails in H; eauto]. unfold ok in H. injection H as <- _. apply (held_still s); auto.
  - apply bind_ok in H as ([s1 r] & E & H). cbn [fst snd] in H. assert (s' = s1) by congruence. subst. destruct (save_iframe _ _ _ _ _ _ E) as (Fi & C & _).
    apply (held_still s); auto. unfold cache_of. rewrite (if_cache _ _ Fi). reflexivity.
Qed.
Theorem history_held : forall w fuel cs s s' log, history w fuel cs s = Ok (s', log) -> held s -> held s'.
Proof.
  induction cs as [|c cs IH]; intros s s' log H Hs; cbn [history] in H; [assert (s' = s) by congruence; subst; exact Hs|].
  apply bind_ok in H as ([s1 e] & E & H). cbn [fst snd] in H. apply bind_ok in H as ([s2 l2] & E2 & H). cbn [fst snd] in H.
  assert (s' = s2) by congruence. subst. eapply IH; [exact E2|]. eapply call_held; eauto.
Qed.
Lemma new_held0 : held new_pdft.
Proof. split; constructor. Qed.
