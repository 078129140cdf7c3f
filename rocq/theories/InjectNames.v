(** Names of font resources. *)
From Coq Require Import String List ZArith Lia Bool Permutation.
From Verif Require Import Base BaseProofs Output Props PropsRefs PdfData Crawl Inject CrawlProofs.
Open Scope Z_scope.
Open Scope list_scope.

Definition cf_name (f : cfont) : bytes := cf_prefix f ++ itoa (cf_index f).

(** ** New names *)
Lemma new_indexes : forall fonts max, (forall f, In f (newFonts fonts max) -> cf_prefix f = B"F" /\ max < cf_index f) /\
  NoDup (map cf_index (newFonts fonts max)) /\ map cf_obj (newFonts fonts max) = map snd fonts.
Proof.
  induction fonts as [|[h id] fonts IH]; intros max; cbn [newFonts map].
  - split; [intros f []|]. split; [constructor|reflexivity].
  - destruct (IH (max + 1)) as (A & N & M). split; [|split].
    + intros f [<-|H]; [cbn; split; [reflexivity|lia]|]. destruct (A f H). split; [auto|lia].
    + cbn [cf_index]. constructor; auto. intros H. apply in_map_iff in H. destruct H as (f & E & H). apply A in H. lia.
    + cbn [cf_obj snd]. rewrite M. reflexivity.
Qed.

(** ** The greatest index *)
Lemma max_ge : forall fs m, (forall f, In f fs -> cf_index f <= fold_left (fun m f => if m <? cf_index f then cf_index f else m) fs m) /\
  m <= fold_left (fun m f => if m <? cf_index f then cf_index f else m) fs m.
Proof.
  induction fs as [|f fs IH]; intros m; cbn [fold_left]; [split; [intros f []|lia]|].
  destruct (IH (if m <? cf_index f then cf_index f else m)) as (A & G).
  set (r := fold_left _ fs _) in *. destruct (Z.ltb_spec m (cf_index f)); split; try lia; intros g [<-|Hg]; auto; try lia.
Qed.

Definition fonts_in (d : fontdict) : list cfont := match d with FInline fs | FObject _ fs => fs | _ => [] end.

Lemma findMax_ge : forall os rs m max, findMaxFontIndex os rs m = Ok max -> m <= max /\
  forall k l, In (k, l) rs -> exists d, font_dict os l = Ok d /\ d <> FArray /\ forall f, In f (fonts_in d) -> cf_index f <= max.
Proof.
  intros os. induction rs as [|[k l] rs IH]; intros m max H; cbn [findMaxFontIndex] in H.
  - inversion H; subst. split; [lia|intros k l []].
  - destruct (font_dict os l) as [d|e| |] eqn:D; try discriminate. cbn [bind] in H.
    assert (X : d <> FArray /\ findMaxFontIndex os rs (if m <? maxFontIndex (fonts_in d) then maxFontIndex (fonts_in d) else m) = Ok max \/
                d = FAbsent /\ findMaxFontIndex os rs m = Ok max).
    { destruct d; try discriminate; [left|left|right]; split; auto; discriminate. }
    destruct X as [(Nd & X)|(-> & X)]; apply IH in X; destruct X as (X1 & X2).
    + pose proof (max_ge (fonts_in d) 0) as (G1 & G2). fold (maxFontIndex (fonts_in d)) in G1, G2.
      assert (maxFontIndex (fonts_in d) <= max /\ m <= max) by (destruct (Z.ltb_spec m (maxFontIndex (fonts_in d))); lia).
      split; [lia|]. intros k' l' [E|Hin]; [|eapply X2; eauto]. inversion E; subst k' l'. exists d. split; [auto|]. split; [auto|].
      intros f Hf. apply G1 in Hf. lia.
    + split; [lia|]. intros k' l' [E|Hin]; [|eapply X2; eauto]. inversion E; subst k' l'. exists FAbsent. split; [auto|].
      split; [discriminate|intros f []].
Qed.

(** ** Splitting a name *)
Lemma first_digit_none : forall s i, first_digit s = Some i -> Forall (fun c => is_digit c = false) (firstn i s) /\ (i < List.length s)%nat /\
  exists c t, skipn i s = c :: t /\ is_digit c = true.
Proof.
  induction s as [|c s IH]; intros i H; cbn [first_digit] in H; [discriminate|].
  destruct (is_digit c) eqn:E.
  - inversion H; subst. split; [constructor|]. split; [cbn; lia|]. exists c, s. split; auto.
  - destruct (first_digit s) as [j|] eqn:F; [|discriminate]. cbn in H. inversion H; subst.
    destruct (IH j eq_refl) as (A & L & X). split; [constructor; auto|]. split; [cbn; lia|exact X].
Qed.

Lemma first_digit_app : forall a c b, Forall (fun c => is_digit c = false) a -> is_digit c = true ->
  first_digit (a ++ c :: b) = Some (List.length a).
Proof.
  induction a as [|x a IH]; intros c b F D; cbn [app first_digit List.length]; [rewrite D; reflexivity|].
  inversion F; subst. rewrite H1, IH by auto. reflexivity.
Qed.

Definition nodigit (s : bytes) : Prop := Forall (fun c => is_digit c = false) s.

Lemma split_prefix : forall s p i, splitFont s = Ok (p, i) -> nodigit p /\ exists n, p = firstn n s.
Proof.
  intros s p i H. unfold splitFont in H. destruct (first_digit s) as [n|] eqn:E; [|discriminate].
  destruct (_ <? n)%nat; [discriminate|]. destruct (atoi _); try discriminate. cbn in H. inversion H; subst.
  split; [apply (first_digit_none s n E)|eauto].
Qed.

Lemma itoa_digits : forall n, 0 <= n -> exists c t, itoa n = c :: t /\ is_digit c = true /\ Forall (fun c => is_digit c = true) (c :: t).
Proof.
  intros n H. unfold itoa. destruct (Z.ltb_spec n 0); [lia|].
  assert (F : Forall (fun c => is_digit c = true) (utoa n)).
  { eapply Forall_impl; [|apply utoa_Forall; lia]. intros c Hc. unfold is_digit. cbn in Hc. lia. }
  pose proof (itoa_nonnil n) as Nn. unfold itoa in Nn. destruct (Z.ltb_spec n 0); [lia|].
  destruct (utoa n) as [|c t]; [congruence|]. exists c, t. inversion F; subst. auto.
Qed.

Lemma name_new : forall p i n, nodigit p -> 0 <= n -> p ++ itoa i = B"F" ++ itoa n -> p = B"F" /\ itoa i = itoa n.
Proof.
  intros p i n D H E. destruct p as [|c p].
  - exfalso. cbn [app] in E. pose proof (itoa_chars i) as C. rewrite E in C. change (B"F" ++ itoa n) with (70 :: itoa n) in C.
    inversion C; subst. unfold num_char in *. lia.
  - change (B"F" ++ itoa n) with (70 :: itoa n) in E. cbn [app] in E.
    pose proof (f_equal (@tl Z) E) as E1. cbn [tl] in E1. assert (c = 70) by congruence. subst c.
    destruct p as [|d p]; [split; [reflexivity|exact E1]|]. exfalso. inversion D as [|? ? _ D2]; inversion D2; subst.
    destruct (itoa_digits n H) as (c & t & Ei & Dc & _). rewrite Ei in E1. cbn [app] in E1. congruence.
Qed.

Lemma itoa_inj : forall a b, itoa a = itoa b -> a = b.
Proof.
  assert (P : forall a b, 0 <= a -> b < 0 -> itoa a <> itoa b).
  { intros a b Ha Hb E. destruct (itoa_digits a Ha) as (c & t & Ea & Dc & _). rewrite Ea in E. unfold itoa in E.
    destruct (Z.ltb_spec b 0); [|lia]. cbn in E. assert (c = 45) by congruence. subst c. discriminate. }
  intros a b E. destruct (Z.ltb_spec a 0), (Z.ltb_spec b 0).
  - unfold itoa in E. destruct (Z.ltb_spec a 0), (Z.ltb_spec b 0); try lia. apply (f_equal (@tl Z)) in E. cbn [tl app] in E.
    apply utoa_inj in E; lia.
  - exfalso. eapply P; [| |symmetry; exact E]; lia.
  - exfalso. eapply P; [| |exact E]; lia.
  - unfold itoa in E. destruct (Z.ltb_spec a 0), (Z.ltb_spec b 0); try lia. apply utoa_inj in E; lia.
Qed.

(** A name of letters and other characters followed by a number without
    leading zeros. *)
Definition normal_name (k : bytes) : Prop :=
  exists p i, k = p ++ itoa i /\ nodigit p /\ ~ In 95 p /\ 0 <= i <= int64_max.

Lemma replace1_none : forall x s, ~ In x s -> replace1 x [] s = s.
Proof.
  intros x. unfold replace1. induction s as [|c s IH]; intros H; cbn [flat_map app]; [reflexivity|].
  destruct (Z.eqb_spec c x); [exfalso; apply H; left; auto|]. rewrite IH; [reflexivity|]. intros X. apply H. right. auto.
Qed.

Lemma split_normal : forall p i, nodigit p -> ~ In 95 p -> 0 <= i <= int64_max -> splitFont (p ++ itoa i) = Ok (p, i).
Proof.
  intros p i D U H. unfold splitFont. destruct (itoa_digits i ltac:(lia)) as (c & t & E & Dc & F). rewrite E.
  rewrite first_digit_app by auto.
  assert (Nu : ~ In 95 (p ++ c :: t)).
  { rewrite in_app_iff. intros [X|X]; [auto|]. rewrite Forall_forall in F. apply F in X. discriminate. }
  rewrite replace1_none by auto. rewrite app_length. destruct (Nat.ltb_spec (List.length p + List.length (c :: t)) (List.length p)); [lia|].
  rewrite skipn_app, skipn_all, Nat.sub_diag. cbn [app]. change (skipn 0 (c :: t)) with (c :: t). rewrite <- E, atoi_itoa by (unfold int64_min; lia).
  cbn [bind]. rewrite firstn_app, firstn_all, Nat.sub_diag. change (firstn 0 (itoa i)) with (@nil Z). rewrite app_nil_r. reflexivity.
Qed.

(** Any name that the new one could be mistaken for has an index at least as great. *)
Lemma split_new : forall n, 0 <= n <= int64_max -> splitFont (B"F" ++ itoa n) = Ok (B"F", n).
Proof. intros n H. apply split_normal; auto; [repeat constructor|]. cbn. intros [X|[]]. discriminate. Qed.
