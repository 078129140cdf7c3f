(** Facts about the reader of [PdfSyntax]. *)
From Coq Require Import String List ZArith Lia Bool.
From Verif Require Import Base BaseProofs CryptoSpec PdfSyntax.
Open Scope Z_scope.
Open Scope list_scope.

Lemma mono_all : forall f,
  (forall s x, value f s = Some x -> value (S f) s = Some x) /\
  (forall s x, items f s = Some x -> items (S f) s = Some x) /\
  (forall s x, entries f s = Some x -> entries (S f) s = Some x).
Proof.
  induction f as [|f (IV & II & IE)]; [repeat split; discriminate|]. split; [|split]; intros s x H.
  - cbn [value] in H. change (value (S (S f)) s) with (match skip s with [] => None | c :: t =>
      if c =? 47 then let (n, r) := span regular t in Some (PName n, r)
      else if c =? 91 then match items (S f) t with Some (l, r) => Some (PArr l, r) | None => None end
      else if c =? 40 then match lit 0 t with Some (l, r) => Some (PStr l, r) | None => None end
      else if c =? 60 then
        match t with
        | d :: t' => if d =? 60 then match entries (S f) t' with Some (l, r) => Some (PDict l, r) | None => None end
                     else let (h, r) := span (fun x => negb (x =? 62)) t in
                          match r with _ :: r' => Some (PHex h, r') | [] => None end
        | [] => None
        end
      else
        let (w, r) := span regular (c :: t) in
        match w with
        | [] => None
        | _ => match number w with
               | None => Some (PWord w, r)
               | Some n => match ref_tail r with Some (g, r') => Some (PRef n g, r') | None => Some (PInt n, r) end
               end
        end end).
    destruct (skip s) as [|c t]; [discriminate|]. destruct (c =? 47); [exact H|].
    destruct (c =? 91).
    { destruct (items f t) as [(l, r)|] eqn:E; [|discriminate]. apply II in E. rewrite E. exact H. }
    destruct (c =? 40); [exact H|]. destruct (c =? 60); [|exact H]. destruct t as [|d t']; [discriminate|].
    destruct (d =? 60); [|exact H]. destruct (entries f t') as [(l, r)|] eqn:E; [|discriminate]. apply IE in E. rewrite E. exact H.
  - cbn [items] in H. change (items (S (S f)) s) with (match skip s with [] => None | c :: t =>
      if c =? 93 then Some ([], t)
      else match value (S f) (c :: t) with
           | Some (v, r) => match items (S f) r with Some (l, r') => Some (v :: l, r') | None => None end
           | None => None
           end end).
    destruct (skip s) as [|c t]; [discriminate|]. destruct (c =? 93); [exact H|].
    destruct (value f (c :: t)) as [(v, r)|] eqn:E; [|discriminate]. apply IV in E. rewrite E.
    destruct (items f r) as [(l, r')|] eqn:E2; [|discriminate]. apply II in E2. rewrite E2. exact H.
  - cbn [entries] in H. change (entries (S (S f)) s) with (match skip s with [] => None | c :: t =>
      if c =? 62 then match t with d :: t' => if d =? 62 then Some ([], t') else None | [] => None end
      else if c =? 47 then
        let (n, r) := span regular t in
        match value (S f) r with
        | Some (v, r1) => match entries (S f) r1 with Some (l, r') => Some ((n, v) :: l, r') | None => None end
        | None => None
        end
      else None end).
    destruct (skip s) as [|c t]; [discriminate|]. destruct (c =? 62); [exact H|]. destruct (c =? 47); [|exact H].
    destruct (span regular t) as (n, r). destruct (value f r) as [(v, r1)|] eqn:E; [|discriminate]. apply IV in E. rewrite E.
    destruct (entries f r1) as [(l, r')|] eqn:E2; [|discriminate]. apply IE in E2. rewrite E2. exact H.
Qed.

Lemma value_mono : forall f g s x, (f <= g)%nat -> value f s = Some x -> value g s = Some x.
Proof. intros f g s x L H. induction L; [auto|]. apply mono_all. auto. Qed.
Lemma items_mono : forall f g s x, (f <= g)%nat -> items f s = Some x -> items g s = Some x.
Proof. intros f g s x L H. induction L; [auto|]. apply mono_all. auto. Qed.
Lemma entries_mono : forall f g s x, (f <= g)%nat -> entries f s = Some x -> entries g s = Some x.
Proof. intros f g s x L H. induction L; [auto|]. apply mono_all. auto. Qed.

Theorem reads_unique : forall s v r v' r', reads s v r -> reads s v' r' -> v = v' /\ r = r'.
Proof.
  intros s v r v' r' (f & H) (g & H'). apply (value_mono f (max f g)) in H; [|lia]. apply (value_mono g (max f g)) in H'; [|lia].
  rewrite H in H'. inversion H'. auto.
Qed.

Definition reads_items (s : bytes) (l : list pv) (r : bytes) : Prop := exists f, items f s = Some (l, r).
Definition reads_entries (s : bytes) (l : list (bytes * pv)) (r : bytes) : Prop := exists f, entries f s = Some (l, r).

(** [r] ends a word. *)
Definition stops (r : bytes) : Prop := match r with [] => True | c :: _ => regular c = false end.
Definition blank (w : bytes) : Prop := Forall (fun c => wsp c = true) w.

Lemma skip_blank : forall w s, blank w -> skip (w ++ s) = skip s.
Proof. intros w s H. induction H as [|c w Hc H IH]; [reflexivity|]. cbn [app skip]. rewrite Hc. auto. Qed.

Lemma skip_start : forall c s, wsp c = false -> skip (c :: s) = c :: s.
Proof. intros c s H. cbn [skip]. rewrite H. reflexivity. Qed.

Lemma span_word : forall p a b, Forall (fun c => p c = true) a -> match b with [] => True | c :: _ => p c = false end -> span p (a ++ b) = (a, b).
Proof.
  intros p a b H S. induction H as [|c a Hc H IH]; cbn [app span].
  - destruct b as [|c b]; [reflexivity|]. cbn [span]. rewrite S. reflexivity.
  - rewrite Hc, IH. reflexivity.
Qed.

Definition reg_word (w : bytes) : Prop := Forall (fun c => regular c = true) w.

Lemma reads_name : forall w n r, blank w -> reg_word n -> stops r -> reads (w ++ 47 :: n ++ r) (PName n) r.
Proof.
  intros w n r Hw Hn Hr. exists 1%nat. cbn [value]. rewrite skip_blank by auto. rewrite skip_start by reflexivity. cbn [Z.eqb Pos.eqb].
  rewrite span_word by auto. reflexivity.
Qed.

Lemma utoa_reg : forall n, 0 <= n -> reg_word (utoa n).
Proof.
  intros n H. eapply Forall_impl; [|apply utoa_Forall; auto]. cbn beta. intros c Hc. unfold regular, wsp, delim. lia.
Qed.

Lemma itoa_reg : forall n, reg_word (itoa n).
Proof.
  intros n. unfold itoa. destruct (Z.ltb_spec n 0); [|apply utoa_reg; auto].
  apply Forall_cons; [reflexivity|]. apply utoa_reg. lia.
Qed.

Lemma number_itoa : forall n, number (itoa n) = Some n.
Proof.
  intros n. unfold itoa. destruct (Z.ltb_spec n 0).
  - cbn [number Z.eqb Pos.eqb]. rewrite atou_utoa by lia. cbn [option_map]. f_equal. lia.
  - pose proof (utoa_Forall n ltac:(lia)) as F. pose proof (utoa_nonnil n). destruct (utoa n) as [|c t] eqn:E; [congruence|].
    cbn [number]. inversion F as [|? ? Hc _]; subst. replace (c =? 45) with false by lia. replace (c =? 43) with false by lia.
    rewrite <- E. apply atou_utoa. lia.
Qed.

(** A word that is not one of the other kinds of object. *)
Lemma value_word : forall w n r, blank w -> reg_word n -> n <> [] -> stops r -> forall f,
  value (S f) (w ++ n ++ r) = match number n with
    | None => Some (PWord n, r)
    | Some k => match ref_tail r with Some (g, r') => Some (PRef k g, r') | None => Some (PInt k, r) end
    end.
Proof.
  intros w n r Hw Hn Ne Hr f. cbn [value]. rewrite skip_blank by auto. destruct n as [|c t]; [congruence|].
  inversion Hn as [|? ? Hc Ht]; subst. cbn [app]. unfold regular in Hc. apply andb_true_iff in Hc. destruct Hc as (Hc1 & Hc2).
  rewrite skip_start by (destruct (wsp c); auto; discriminate).
  assert (D : delim c = false) by (destruct (delim c); auto; discriminate). unfold delim in D.
  repeat (apply orb_false_iff in D; destruct D as (D & ?)).
  replace (c =? 47) with false by lia. replace (c =? 91) with false by lia. replace (c =? 40) with false by lia. replace (c =? 60) with false by lia.
  change (c :: t ++ r) with ((c :: t) ++ r). rewrite span_word by auto. reflexivity.
Qed.

Lemma itoa_nn : forall n, itoa n <> [].
Proof. intros n. unfold itoa. destruct (n <? 0); [discriminate|apply utoa_nonnil]. Qed.

Lemma reads_int : forall w n r, blank w -> stops r -> ref_tail r = None -> reads (w ++ itoa n ++ r) (PInt n) r.
Proof.
  intros w n r Hw Hr RT. exists 1%nat. rewrite value_word by (auto using itoa_reg, itoa_nn). rewrite number_itoa, RT. reflexivity.
Qed.

Lemma reads_ref : forall w n g r, blank w -> 0 <= g -> stops r -> reads (w ++ itoa n ++ B" " ++ itoa g ++ B" R" ++ r) (PRef n g) r.
Proof.
  intros w n g r Hw Hg Hr. exists 1%nat. rewrite value_word; [|auto|apply itoa_reg|apply itoa_nn|reflexivity].
  rewrite number_itoa. assert (RT : ref_tail (B" " ++ itoa g ++ B" R" ++ r) = Some (g, r)); [|rewrite RT; reflexivity].
  unfold ref_tail. rewrite skip_blank by (apply Forall_cons; [reflexivity|apply Forall_nil]).
  pose proof (itoa_nn g). pose proof (itoa_reg g) as R. rewrite itoa_nonneg in * by auto.
  assert (SK : skip (utoa g ++ B" R" ++ r) = utoa g ++ B" R" ++ r).
  { destruct (utoa g) as [|c t]; [congruence|]. inversion R as [|? ? Hc _]; subst. cbn [app]. apply skip_start.
    unfold regular in Hc. destruct (wsp c); [discriminate|reflexivity]. }
  rewrite SK, span_word by (auto; reflexivity). rewrite atou_utoa by auto.
  change (skip (B" R" ++ r)) with (82 :: r). change (82 :: r) with ([82] ++ r).
  rewrite span_word; [reflexivity|apply Forall_cons; [reflexivity|apply Forall_nil]|exact Hr].
Qed.

(** No reference follows a number when the next object does not start with a digit. *)
Lemma ref_none : forall w c t, blank w -> wsp c = false -> is_digit c = false -> ref_tail (w ++ c :: t) = None.
Proof.
  intros w c t Hw Hc Hd. unfold ref_tail. rewrite skip_blank by auto. rewrite skip_start by auto. cbn [span].
  destruct (regular c); [|reflexivity]. destruct (span regular t) as (a, b). unfold atou. cbn [forallb]. rewrite Hd. reflexivity.
Qed.

(** Nor when the next two words are a number and not the keyword. *)
Lemma ref_none2 : forall w n w2 c t, blank w -> reg_word n -> blank w2 -> stops (w2 ++ c :: t) -> n <> [] -> wsp c = false -> c <> 82 ->
  ref_tail (w ++ n ++ w2 ++ c :: t) = None.
Proof.
  intros w n w2 c t Hw Hn Hw2 Hs Ne Hc H82. unfold ref_tail. rewrite skip_blank by auto.
  assert (SK : skip (n ++ w2 ++ c :: t) = n ++ w2 ++ c :: t).
  { destruct n as [|x y]; [congruence|]. inversion Hn as [|? ? Hx _]; subst. cbn [app]. apply skip_start.
    unfold regular in Hx. destruct (wsp x); [discriminate|reflexivity]. }
  rewrite SK, span_word by auto. destruct (atou n); [|reflexivity]. rewrite skip_blank by auto. rewrite skip_start by auto. cbn [span].
  destruct (regular c); [|reflexivity]. destruct (span regular t) as (a, b). change (B"R") with [82]. cbn [beqb].
  replace (c =? 82) with false by lia. reflexivity.
Qed.

Lemma entries_end : forall w r, blank w -> reads_entries (w ++ B">>" ++ r) [] r.
Proof. intros w r Hw. exists 1%nat. cbn [entries]. rewrite skip_blank by auto. reflexivity. Qed.

Lemma entries_step : forall w k s v r l r2, blank w -> reg_word k -> stops s -> reads s v r -> reads_entries r l r2 ->
  reads_entries (w ++ 47 :: k ++ s) ((k, v) :: l) r2.
Proof.
  intros w k s v r l r2 Hw Hk Hs (f & Hv) (g & Hl). exists (S (max f g)). cbn [entries]. rewrite skip_blank by auto.
  rewrite skip_start by reflexivity. cbn [Z.eqb Pos.eqb]. rewrite span_word by auto.
  rewrite (value_mono f _ _ _ (Nat.le_max_l f g) Hv), (entries_mono g _ _ _ (Nat.le_max_r f g) Hl). reflexivity.
Qed.

Lemma items_end : forall w r, blank w -> reads_items (w ++ B"]" ++ r) [] r.
Proof. intros w r Hw. exists 1%nat. cbn [items]. rewrite skip_blank by auto. reflexivity. Qed.

Lemma value_skip : forall f w s, blank w -> value f (w ++ s) = value f s.
Proof. intros [|f] w s H; [reflexivity|]. cbn [value]. rewrite skip_blank by auto. reflexivity. Qed.

Lemma items_step : forall s c t v r l r2, skip s = c :: t -> c <> 93 -> reads s v r -> reads_items r l r2 -> reads_items s (v :: l) r2.
Proof.
  intros s c t v r l r2 Hs Hc (f & Hv) (g & Hl). exists (S (max f g)). cbn [items]. rewrite Hs. replace (c =? 93) with false by lia.
  assert (E : value (max f g) (c :: t) = Some (v, r)).
  { apply (value_mono f _ _ _ (Nat.le_max_l f g)) in Hv. rewrite <- Hv.
    assert (X : forall k, value k (c :: t) = value k s).
    { intros [|k]; [reflexivity|]. cbn [value]. rewrite Hs.
      assert (W : wsp c = false). { clear - Hs. induction s as [|a s IH]; cbn [skip] in Hs; [discriminate|]. destruct (wsp a) eqn:A; [auto|]. inversion Hs. subst. auto. }
      rewrite skip_start by auto. reflexivity. }
    apply X. }
  rewrite E, (items_mono g _ _ _ (Nat.le_max_r f g) Hl). reflexivity.
Qed.

Lemma reads_dict : forall w s l r, blank w -> reads_entries s l r -> reads (w ++ B"<<" ++ s) (PDict l) r.
Proof.
  intros w s l r Hw (f & H). exists (S f). cbn [value]. rewrite skip_blank by auto.
  change (B"<<" ++ s) with (60 :: 60 :: s). rewrite skip_start by reflexivity. cbn [Z.eqb Pos.eqb]. rewrite H. reflexivity.
Qed.

Lemma reads_arr : forall w s l r, blank w -> reads_items s l r -> reads (w ++ B"[" ++ s) (PArr l) r.
Proof.
  intros w s l r Hw (f & H). exists (S f). cbn [value]. rewrite skip_blank by auto.
  change (B"[" ++ s) with (91 :: s). rewrite skip_start by reflexivity. cbn [Z.eqb Pos.eqb]. rewrite H. reflexivity.
Qed.

Lemma reads_str : forall w s b r, blank w -> lit 0 s = Some (b, r) -> reads (w ++ B"(" ++ s) (PStr b) r.
Proof.
  intros w s b r Hw H. exists 1%nat. cbn [value]. rewrite skip_blank by auto.
  change (B"(" ++ s) with (40 :: s). rewrite skip_start by reflexivity. cbn [Z.eqb Pos.eqb]. rewrite H. reflexivity.
Qed.

Ltac blanks := repeat (apply Forall_cons; [reflexivity|]); apply Forall_nil.

Lemma entries_skip : forall w s l r, blank w -> reads_entries s l r -> reads_entries (w ++ s) l r.
Proof.
  intros w s l r Hw ([|f] & H); [discriminate|]. exists (S f). cbn [entries] in *. rewrite skip_blank by auto. exact H.
Qed.

(** Lines "/Key value" of the dictionaries that the library writes. *)
Definition slash (r : bytes) : Prop := exists t, r = 47 :: t.

Lemma line_any : forall k s v r l r2, reg_word k -> stops s -> reads s v ([10] ++ r) -> reads_entries r l r2 ->
  reads_entries (47 :: k ++ s) ((k, v) :: l) r2.
Proof.
  intros k s v r l r2 Hk Hs Hv Hl. change (47 :: k ++ s) with ([] ++ 47 :: k ++ s).
  eapply entries_step; eauto; [apply Forall_nil|]. apply entries_skip; [blanks|auto].
Qed.

Lemma line_int : forall k n r l r2, reg_word k -> slash r -> reads_entries r l r2 ->
  reads_entries (47 :: k ++ B" " ++ itoa n ++ [10] ++ r) ((k, PInt n) :: l) r2.
Proof.
  intros k n r l r2 Hk (t & ->) Hl. eapply line_any; eauto; [reflexivity|]. apply reads_int; [blanks|reflexivity|].
  apply (ref_none [10] 47 t); [blanks|reflexivity|reflexivity].
Qed.

Lemma line_name : forall k n r l r2, reg_word k -> reg_word n -> reads_entries r l r2 ->
  reads_entries (47 :: k ++ B" /" ++ n ++ [10] ++ r) ((k, PName n) :: l) r2.
Proof.
  intros k n r l r2 Hk Hn Hl. eapply line_any; eauto; [reflexivity|].
  apply (reads_name (B" ") n ([10] ++ r)); [blanks|auto|reflexivity].
Qed.

Lemma line_ref : forall k n r l r2, reg_word k -> reads_entries r l r2 ->
  reads_entries (47 :: k ++ B" " ++ itoa n ++ B" 0 R" ++ [10] ++ r) ((k, PRef n 0) :: l) r2.
Proof.
  intros k n r l r2 Hk Hl. eapply line_any; eauto; [reflexivity|].
  apply (reads_ref (B" ") n 0 ([10] ++ r)); [blanks|lia|reflexivity].
Qed.

(** The last line. *)
Lemma last_int : forall k n r, reg_word k -> reads_entries (47 :: k ++ B" " ++ itoa n ++ [10] ++ B">>" ++ r) [(k, PInt n)] r.
Proof.
  intros k n r Hk. eapply line_any; auto; [reflexivity| |apply (entries_end []); apply Forall_nil].
  apply reads_int; [blanks|reflexivity|]. apply (ref_none [10] 62 (62 :: r)); [blanks|reflexivity|reflexivity].
Qed.

Lemma itoa_hd : forall n, exists c t, itoa n = c :: t /\ wsp c = false /\ (is_digit c = true \/ c = 45).
Proof.
  intros n. unfold itoa. destruct (Z.ltb_spec n 0).
  - exists 45, (utoa (- n)). auto.
  - pose proof (utoa_Forall n ltac:(lia)) as F. pose proof (utoa_nonnil n). destruct (utoa n) as [|c t]; [congruence|].
    inversion F; subst. exists c, t. split; [auto|]. unfold wsp, is_digit. split; [lia|left; lia].
Qed.
