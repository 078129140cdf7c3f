From Coq Require Import String List ZArith Lia Bool.
From Verif Require Import Base BaseProofs Utf8.
Open Scope Z_scope.
Open Scope list_scope.

Ltac zb := repeat match goal with
  | |- context [?a <? ?b] => destruct (Z.ltb_spec a b); try lia
  | |- context [?a <=? ?b] => destruct (Z.leb_spec a b); try lia
  | |- context [?a =? ?b] => destruct (Z.eqb_spec a b); try lia
  end.

Ltac zbh H := repeat match type of H with
  | context [?a <? ?b] => destruct (Z.ltb_spec a b); try lia
  | context [?a <=? ?b] => destruct (Z.leb_spec a b); try lia
  | context [?a =? ?b] => destruct (Z.eqb_spec a b); try lia
  end.

Lemma utf8_pos : forall r, (0 < List.length (utf8 r))%nat.
Proof. intros. unfold utf8. zb; simpl; lia. Qed.

Lemma decode_utf8 : forall r t, scalar r -> decode_rune (utf8 r ++ t) = (r, List.length (utf8 r)).
Proof.
  intros r t H. unfold scalar in H. unfold utf8.
  destruct (Z.leb_spec r 127); [cbn [app decode_rune]; zb; reflexivity|].
  destruct (Z.leb_spec r 2047).
  { cbn [app decode_rune]. unfold cont. cbn [List.length].
    destruct (Z.ltb_spec (192 + r / 64) 128); [lia|].
    destruct (Z.ltb_spec (192 + r / 64) 194); [lia|]. destruct (Z.ltb_spec 244 (192 + r / 64)); [lia|]. cbn [orb].
    destruct (Z.eqb_spec (192 + r / 64) 224); [lia|]. destruct (Z.eqb_spec (192 + r / 64) 240); [lia|].
    destruct (Z.eqb_spec (192 + r / 64) 237); [lia|]. destruct (Z.eqb_spec (192 + r / 64) 244); [lia|].
    destruct (Z.leb_spec 128 (128 + r mod 64)); [|lia]. destruct (Z.leb_spec (128 + r mod 64) 191); [|lia]. cbn [andb negb].
    destruct (Z.ltb_spec (192 + r / 64) 224); [|lia]. f_equal. lia. }
  destruct (Z.leb_spec r 65535).
  { cbn [app decode_rune]. unfold cont. cbn [List.length].
    set (a := 224 + r / 4096). set (b := 128 + r / 64 mod 64). set (c := 128 + r mod 64).
    assert (Hr : r = 4096 * (a - 224) + 64 * (b - 128) + (c - 128)) by lia.
    assert (Ha : 224 <= a <= 239) by lia. assert (Hb : 128 <= b <= 191) by lia. assert (Hc : 128 <= c <= 191) by lia.
    clearbody a b c.
    destruct (Z.ltb_spec a 128); [lia|].
    destruct (Z.ltb_spec a 194); [lia|]. destruct (Z.ltb_spec 244 a); [lia|]. cbn [orb].
    destruct (Z.ltb_spec a 224); [lia|]. destruct (Z.ltb_spec a 240); [|lia].
    destruct (Z.leb_spec 128 c); [|lia]. destruct (Z.leb_spec c 191); [|lia]. cbn [andb negb].
    destruct (Z.eqb_spec a 240); [lia|]. destruct (Z.eqb_spec a 244); [lia|].
    destruct (Z.eqb_spec a 224); destruct (Z.eqb_spec a 237); try lia;
      zb; cbn [andb negb]; f_equal; lia. }
  cbn [app decode_rune]. unfold cont. cbn [List.length].
  set (a := 240 + r / 262144). set (b := 128 + r / 4096 mod 64). set (c := 128 + r / 64 mod 64). set (d := 128 + r mod 64).
  assert (Hr : r = 262144 * (a - 240) + 4096 * (b - 128) + 64 * (c - 128) + (d - 128)) by lia.
  assert (Ha : 240 <= a <= 244) by lia. assert (Hb : 128 <= b <= 191) by lia. assert (Hc : 128 <= c <= 191) by lia.
  assert (Hd : 128 <= d <= 191) by lia.
  clearbody a b c d.
  destruct (Z.ltb_spec a 128); [lia|].
  destruct (Z.ltb_spec a 194); [lia|]. destruct (Z.ltb_spec 244 a); [lia|]. cbn [orb].
  destruct (Z.ltb_spec a 224); [lia|]. destruct (Z.ltb_spec a 240); [lia|].
  destruct (Z.leb_spec 128 c); [|lia]. destruct (Z.leb_spec c 191); [|lia]. cbn [andb negb].
  destruct (Z.leb_spec 128 d); [|lia]. destruct (Z.leb_spec d 191); [|lia]. cbn [andb negb].
  destruct (Z.eqb_spec a 224); [lia|]. destruct (Z.eqb_spec a 237); [lia|].
  destruct (Z.eqb_spec a 240); destruct (Z.eqb_spec a 244); try lia; zb; cbn [andb negb]; f_equal; lia.
Qed.

Lemma runes_from_utf8 : forall rs f, Forall scalar rs -> (List.length (flat_map utf8 rs) <= f)%nat ->
  runes_from f (flat_map utf8 rs) = rs.
Proof.
  induction rs as [|r rs IH]; intros f Hs Hf; cbn [flat_map] in *.
  - destruct f; reflexivity.
  - inversion Hs; subst. rewrite app_length in Hf. pose proof (utf8_pos r) as P.
    destruct f as [|f]; [lia|]. cbn [runes_from].
    destruct (utf8 r ++ flat_map utf8 rs) as [|x y] eqn:E.
    { apply (f_equal (@List.length Z)) in E. rewrite app_length in E. simpl in E. lia. }
    rewrite <- E, decode_utf8 by auto. f_equal.
    rewrite skipn_app, skipn_all, Nat.sub_diag, skipn_O. apply IH; auto. lia.
Qed.

Lemma runes_utf8 : forall rs, Forall scalar rs -> runes (flat_map utf8 rs) = rs.
Proof. intros. apply runes_from_utf8; auto. Qed.

(** Bytes are bytes. *)
Definition bytesp (s : bytes) : Prop := Forall (fun c => 0 <= c <= 255) s.

Ltac rj H := apply (f_equal (@fst Z nat)) in H; cbv beta iota delta [fst] in H; rewrite <- H.

Lemma decode_scalar : forall s r n, bytesp s -> decode_rune s = (r, n) -> scalar r.
Proof.
  intros s r n Hb H. unfold decode_rune in H. unfold scalar.
  destruct s as [|a s]; [rj H; lia|].
  inversion Hb as [|? ? Ha Hs]; subst.
  destruct (Z.ltb_spec a 128); [rj H; lia|].
  destruct (Z.ltb_spec a 194); [cbn [orb] in H; rj H; lia|].
  destruct (Z.ltb_spec 244 a); [cbn [orb] in H; rj H; lia|]. cbn [orb] in H.
  destruct s as [|b s]; [rj H; lia|]. inversion Hs as [|? ? Hb' Hs']; subst.
  unfold cont in H.
  destruct (Z.eqb_spec a 224); destruct (Z.eqb_spec a 240); destruct (Z.eqb_spec a 237); destruct (Z.eqb_spec a 244); try lia;
    cbv beta iota zeta in H;
    match type of H with context [?l <=? b] => destruct (Z.leb_spec l b) end;
    match type of H with context [b <=? ?l] => destruct (Z.leb_spec b l) end; cbn [andb negb] in H;
    try (rj H; lia);
    destruct (Z.ltb_spec a 224); try lia;
    try (rj H; lia);
    (destruct s as [|c s]; [rj H; lia|]);
    destruct (Z.leb_spec 128 c); destruct (Z.leb_spec c 191); cbn [andb negb] in H; try (rj H; lia);
    destruct (Z.ltb_spec a 240); try lia; try (rj H; lia);
    (destruct s as [|d s]; [rj H; lia|]);
    destruct (Z.leb_spec 128 d); destruct (Z.leb_spec d 191); cbn [andb negb] in H; rj H; lia.
Qed.

Lemma skipn_bytes : forall n s, bytesp s -> bytesp (skipn n s).
Proof. induction n; intros s H; [auto|]. destruct s; [auto|]. inversion H; subst. apply IHn. auto. Qed.

Lemma runes_from_scalar : forall f s, bytesp s -> Forall scalar (runes_from f s).
Proof.
  induction f; intros s H; cbn [runes_from]; [constructor|]. destruct s as [|a s]; [constructor|].
  destruct (decode_rune (a :: s)) as [r n] eqn:E. constructor.
  - apply decode_scalar in E; auto.
  - apply IHf. apply skipn_bytes. auto.
Qed.

Lemma runes_scalar : forall s, bytesp s -> Forall scalar (runes s).
Proof. intros. apply runes_from_scalar. auto. Qed.

Lemma string_of_rune_scalar : forall r, scalar r -> string_of_rune r = utf8 r.
Proof. intros r H. unfold scalar in H. unfold string_of_rune. zb; reflexivity. Qed.

(** Re-encoding what was decoded gives the string back exactly for valid strings. *)
Lemma encode_runes : forall s, bytesp s ->
  (flat_map utf8 (runes s) = s <-> valid_utf8 s).
Proof.
  intros s Hb. split.
  - intros H. exists (runes s). split; [apply runes_scalar; auto|auto].
  - intros (rs & Hs & ->). rewrite runes_utf8 by auto. reflexivity.
Qed.

Lemma runes_app : forall a b, valid_utf8 a -> runes (a ++ b) = runes a ++ runes b.
Proof.
  intros a b (rs & Hs & ->). rewrite runes_utf8 by auto.
  unfold runes. rewrite app_length.
  assert (G : forall f, (List.length (flat_map utf8 rs) + List.length b <= f)%nat ->
            runes_from f (flat_map utf8 rs ++ b) = rs ++ runes_from (List.length b) b).
  { induction rs as [|r rs IH]; intros f Hf; cbn [flat_map app] in *.
    - assert (M : forall f g c, (List.length c <= f)%nat -> (List.length c <= g)%nat -> runes_from f c = runes_from g c).
      { clear. induction f; intros g c H1 H2.
        - destruct c; simpl in *; [|lia]. destruct g; reflexivity.
        - destruct g. { destruct c; simpl in *; [reflexivity|lia]. }
          cbn [runes_from]. destruct c as [|x c]; [reflexivity|].
          destruct (decode_rune (x :: c)) as [r n] eqn:E. f_equal.
          assert (Hn : (1 <= n)%nat).
          { unfold decode_rune in E. repeat match type of E with
              | context [if ?b then _ else _] => destruct b
              | context [match ?l with [] => _ | _ => _ end] => destruct l
              end; injection E as <- <-; lia. }
          destruct n; [lia|]. cbn [skipn]. simpl in H1, H2.
          pose proof (skipn_length n c). apply IHf; lia. }
      apply M; simpl in *; lia.
    - inversion Hs; subst. rewrite app_length in Hf. pose proof (utf8_pos r) as P.
      destruct f as [|f]; [lia|]. cbn [runes_from].
      destruct ((utf8 r ++ flat_map utf8 rs) ++ b) as [|x y] eqn:E.
      { apply (f_equal (@List.length Z)) in E. rewrite !app_length in E. simpl in E. lia. }
      rewrite <- E, <- app_assoc, decode_utf8 by auto. f_equal.
      rewrite skipn_app, skipn_all, Nat.sub_diag, skipn_O. apply IH; auto. lia. }
  apply G. lia.
Qed.
