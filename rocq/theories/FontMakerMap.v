(** Map files are read as they are meant. *)
From Coq Require Import String List ZArith Lia Bool.
From Coq.Floats Require Import SpecFloat.
From Verif Require Import Base BaseProofs Float64 Ttf Output Subset PdfSyntax ApiIds FontMaker FontMakerSpec FontMakerGo.
Open Scope Z_scope.
Open Scope list_scope.

Lemma nibble_digit : forall c v, nibble c v -> hex_digit c = Some v /\ 0 <= v < 16 /\ 48 <= c <= 102 /\ c <> 43 /\ c <> 45.
Proof.
  intros c v H. unfold hex_digit, is_digit. unfold nibble in H.
  destruct (Z.leb_spec 48 c), (Z.leb_spec c 57), (Z.leb_spec 97 c), (Z.leb_spec c 102), (Z.leb_spec 65 c), (Z.leb_spec c 70); cbn [andb]; try lia;
  (split; [f_equal; lia|lia]).
Qed.
Lemma hex_value_app : forall a c x, hex_value x (a ++ c) = match hex_value x a with Some y => hex_value y c | None => None end.
Proof. induction a as [|d a IH]; intros c x; [reflexivity|]. cbn [app hex_value]. destruct (hex_digit d); [apply IH|reflexivity]. Qed.
Lemma hexadecimal_value : forall h n, hexadecimal h n -> hex_value 0 h = Some n /\ 0 <= n /\ h <> [] /\ Forall (fun c => 48 <= c <= 102) h.
Proof.
  induction 1 as [c v N|s n c v H (IH1 & IH2 & IH3 & IH4) N]; destruct (nibble_digit c v N) as (D & R & R2 & _).
  - cbn [hex_value]. rewrite D. split; [f_equal; lia|]. split; [lia|]. split; [discriminate|]. constructor; [lia|constructor].
  - rewrite hex_value_app, IH1. cbn [hex_value]. rewrite D. split; [reflexivity|]. split; [lia|]. split; [destruct s; discriminate|].
    apply Forall_app. split; [exact IH4|constructor; [lia|constructor]].
Qed.
Lemma parse_hexadecimal : forall h n, hexadecimal h n -> n < 2 ^ 31 -> parse_hex h = Ok n.
Proof.
  intros h n H L. destruct (hexadecimal_value h n H) as (V & P & Ne & F). unfold parse_hex. destruct h as [|c r]; [contradiction|].
  inversion F; subst. destruct (Z.eqb_spec c 43); [lia|]. destruct (Z.eqb_spec c 45); [lia|]. rewrite V.
  replace ((int64_min <=? n) && (n <=? int64_max)) with true; [reflexivity|]. unfold int64_min, int64_max. change (2 ^ 31) with 2147483648 in L. symmetry. apply andb_true_iff. split; apply Z.leb_le; lia.
Qed.

Lemma name_bytes : forall n, glyph_name n -> Forall (fun c => 33 <= c <= 126) n /\ exists m y, n = m ++ [y] /\ 33 <= y <= 126.
Proof.
  intros n (Ne & A). assert (F : Forall (fun c => 33 <= c <= 126) n).
  { apply Forall_forall. intros c Hc. rewrite forallb_forall in A. specialize (A c Hc). unfold name_char, regular, wsp, plain_char in A. lia. }
  split; [exact F|]. destruct (exists_last Ne) as (m & y & ->). exists m, y. split; [reflexivity|]. apply Forall_app in F as (_ & F). inversion F; subst. assumption.
Qed.
Lemma range_all : forall s, forallb (fun c => (32 <=? c) && (c <=? 126)) s = true -> Forall (fun c => 32 <= c <= 126) s.
Proof. intros s H. apply Forall_forall. intros c Hc. rewrite forallb_forall in H. specialize (H c Hc). cbv beta in H. lia. Qed.
Lemma entry_bytes : forall e l, entry_line e l -> Forall (fun c => 32 <= c <= 126) l /\ exists m y, l = 33 :: m ++ [y] /\ 33 <= y <= 126.
Proof.
  intros [[c uv] n] l (h1 & h2 & H1 & H2 & _ & _ & N & -> & _). destruct (hexadecimal_value _ _ H1) as (_ & _ & _ & F1). destruct (hexadecimal_value _ _ H2) as (_ & _ & _ & F2).
  destruct (name_bytes n N) as (F3 & m & y & -> & Y). split.
  - apply Forall_app; split; [apply range_all; reflexivity|]. apply Forall_app; split; [eapply Forall_impl; [|exact F1]; intros a Ha; cbv beta in Ha; lia|].
    apply Forall_app; split; [apply range_all; reflexivity|]. apply Forall_app; split; [eapply Forall_impl; [|exact F2]; intros a Ha; cbv beta in Ha; lia|].
    apply Forall_app; split; [apply range_all; reflexivity|]. eapply Forall_impl; [|exact F3]. intros a Ha. cbv beta in Ha. lia.
  - exists (h1 ++ B" U+" ++ h2 ++ B" " ++ m), y. split; [|exact Y]. rewrite <- !app_assoc. reflexivity.
Qed.

Definition fm (p : Z * bytes) : fmap := mkFM (fst p) (snd p).
Lemma map_line_entry : forall c uv n l m, entry_line (c, uv, n) l -> List.length m = 256%nat -> map_line m l = Ok (set_nth (Z.to_nat c) (fun _ => mkFM uv n) m).
Proof.
  intros c uv n l m E L. destruct (entry_bytes _ _ E) as (_ & q & y & El & Y). unfold map_line. rewrite trim_space_id.
  2:{ rewrite El. apply trimmed_ascii; unfold ascii, is_space1; lia. }
  clear El Y y q. destruct E as (h1 & h2 & H1 & H2 & C & U & N & -> & _).
  destruct (hexadecimal_value _ _ H1) as (_ & _ & N1 & F1). destruct (hexadecimal_value _ _ H2) as (_ & _ & N2 & F2). destruct (name_bytes n N) as (F3 & _).
  assert (S : split1 32 (B"!" ++ h1 ++ B" U+" ++ h2 ++ B" " ++ n) = [33 :: h1; 85 :: 43 :: h2; n]).
  { replace (B"!" ++ h1 ++ B" U+" ++ h2 ++ B" " ++ n) with ((33 :: h1) ++ 32 :: ((85 :: 43 :: h2) ++ 32 :: n)) by (cbn; rewrite <- ?app_assoc; reflexivity).
    rewrite split1_word. 2:{ constructor; [lia|]. eapply Forall_impl; [|exact F1]. intros a Ha. cbv beta in Ha. lia. }
    f_equal. rewrite split1_word. 2:{ constructor; [lia|]. constructor; [lia|]. eapply Forall_impl; [|exact F2]. intros a Ha. cbv beta in Ha. lia. }
    f_equal. apply split1_nosep. eapply Forall_impl; [|exact F3]. intros a Ha. cbv beta in Ha. lia. }
  rewrite S.
  assert (S1 : slice (33 :: h1) 1 (blen (33 :: h1)) = Ok h1).
  { unfold slice, blen. cbn [List.length]. rewrite Nat2Z.inj_succ. destruct ((0 <=? 1) && (1 <=? Z.succ (Z.of_nat (List.length h1))) && (Z.succ (Z.of_nat (List.length h1)) <=? Z.succ (Z.of_nat (List.length h1)))) eqn:E; [|lia].
    change (Z.to_nat 1) with 1%nat. cbn [skipn]. replace (Z.to_nat (Z.succ (Z.of_nat (List.length h1)) - 1)) with (List.length h1) by lia. rewrite firstn_all. reflexivity. }
  assert (S2 : slice (85 :: 43 :: h2) 2 (blen (85 :: 43 :: h2)) = Ok h2).
  { unfold slice, blen. cbn [List.length]. rewrite !Nat2Z.inj_succ. match goal with |- (if ?x then _ else _) = _ => destruct x eqn:E; [|lia] end.
    change (Z.to_nat 2) with 2%nat. cbn [skipn]. replace (Z.to_nat (Z.succ (Z.succ (Z.of_nat (List.length h2))) - 2)) with (List.length h2) by lia. rewrite firstn_all. reflexivity. }
  change (at_ [33 :: h1; 85 :: 43 :: h2; n] 0) with (Ok (33 :: h1)). change (at_ [33 :: h1; 85 :: 43 :: h2; n] 1) with (Ok (85 :: 43 :: h2)). change (at_ [33 :: h1; 85 :: 43 :: h2; n] 2) with (Ok n).
  cbn [bind]. rewrite S1. cbn [bind]. rewrite S2. cbn [bind]. rewrite (parse_hexadecimal h1 c H1) by lia. cbn [bind]. rewrite (parse_hexadecimal h2 uv H2) by exact U. cbn [bind].
  unfold at_. destruct (Z.ltb_spec c 0); [lia|]. destruct (nth_error m (Z.to_nat c)) eqn:En; [reflexivity|]. apply nth_error_None in En. lia.
Qed.

Lemma set_nth_len : forall A n f (l : list A), List.length (set_nth n f l) = List.length l.
Proof. induction n as [|n IH]; intros f [|x l]; cbn [set_nth List.length]; auto. Qed.
Lemma map_lines_entries : forall es ls m (t : Z -> Z * bytes), Forall2 entry_line es ls -> List.length m = 256%nat -> (forall c, 0 <= c < 256 -> nth_error m (Z.to_nat c) = Some (fm (t c))) ->
  exists m', map_lines m ls = Ok m' /\ List.length m' = 256%nat /\
    forall c, 0 <= c < 256 -> nth_error m' (Z.to_nat c) = Some (fm (fold_left (fun a e => let '(x, uv, n) := e in if x =? c then (uv, n) else a) es (t c))).
Proof.
  intros es ls m t H. revert m t. induction H as [|e l es ls E H IH]; intros m t L T; [exists m; auto|]. destruct e as [[x uv] n].
  cbn [map_lines]. rewrite (map_line_entry x uv n l m E L). cbn [bind fold_left].
  assert (X : 0 <= x < 256) by (destruct E as (h1 & h2 & _ & _ & X & _); exact X).
  destruct (IH (set_nth (Z.to_nat x) (fun _ => mkFM uv n) m) (fun c => if x =? c then (uv, n) else t c)) as (m' & R & L' & T').
  - rewrite set_nth_len. exact L.
  - intros c C. destruct (Z.eqb_spec x c) as [->|Ne].
    + rewrite nth_set, (T c C). reflexivity.
    + rewrite nth_set_other by lia. apply T. exact C.
  - exists m'. split; [exact R|]. split; [exact L'|exact T'].
Qed.

Lemma drop_cr_line : forall l y, y <> 13 -> drop_cr (l ++ [y]) = l ++ [y].
Proof. intros l y H. unfold drop_cr. rewrite rev_app_distr. cbn [rev app]. destruct (Z.eqb_spec y 13); [contradiction|reflexivity]. Qed.
Lemma drop_cr_crlf : forall l, drop_cr (l ++ [13]) = l.
Proof. intros l. unfold drop_cr. rewrite rev_app_distr. cbn [rev app]. change (13 =? 13) with true. cbv iota. apply rev_involutive. Qed.
Lemma scan_map : forall s es, map_file s es -> exists ls, Forall2 entry_line es ls /\ exists raw, split1 10 s = raw ++ [[]] /\ short_lines raw = ls.
Proof.
  induction 1 as [|e l s es E H (ls & F & raw & S & R)|e l s es E H (ls & F & raw & S & R)].
  - exists []. split; [constructor|]. exists []. split; reflexivity.
  - exists (l :: ls). split; [constructor; assumption|]. destruct (entry_bytes e l E) as (B1 & m & y & El & Y).
    assert (Len : blen l < 65000) by (destruct e as [[c uv] n]; destruct E as (h1 & h2 & _ & _ & _ & _ & _ & _ & Len); exact Len).
    exists (l :: raw). split.
    + rewrite split_line; [rewrite S; reflexivity|]. intros I. rewrite Forall_forall in B1. specialize (B1 10 I). cbv beta in B1. lia.
    + cbn [short_lines]. destruct (Z.ltb_spec (blen l) 65536); [|lia]. rewrite R. f_equal. rewrite El. change (33 :: m ++ [y]) with ((33 :: m) ++ [y]). apply drop_cr_line. lia.
  - exists (l :: ls). split; [constructor; assumption|]. destruct (entry_bytes e l E) as (B1 & m & y & El & Y).
    assert (Len : blen l < 65000) by (destruct e as [[c uv] n]; destruct E as (h1 & h2 & _ & _ & _ & _ & _ & _ & Len); exact Len).
    exists ((l ++ [13]) :: raw). split.
    + replace (l ++ [13; 10] ++ s) with ((l ++ [13]) ++ [10] ++ s) by (rewrite <- app_assoc; reflexivity). rewrite split_line; [rewrite S; reflexivity|].
      intros I. apply in_app_or in I as [I|[I|[]]]; [|discriminate]. rewrite Forall_forall in B1. specialize (B1 10 I). cbv beta in B1. lia.
    + cbn [short_lines]. assert (blen (l ++ [13]) = blen l + 1) by (unfold blen; rewrite app_length; cbn [List.length]; lia).
      destruct (Z.ltb_spec (blen (l ++ [13])) 65536); [|lia]. rewrite R, drop_cr_crlf. reflexivity.
Qed.

Theorem load_map_ok : forall s es, map_file s es -> exists m, load_map s = Ok m /\ List.length m = 256%nat /\ forall c, 0 <= c < 256 -> nth_error m (Z.to_nat c) = Some (fm (code_entry es c)).
Proof.
  intros s es H. destruct (scan_map s es H) as (ls & F & raw & S & R). unfold load_map, scan_lines. rewrite S, rev_app_distr. cbn [rev app]. rewrite rev_involutive, R.
  apply (map_lines_entries es ls (repeat notdef 256) (fun _ => (-1, B".notdef")) F).
  - apply repeat_length.
  - intros c C. destruct (nth_error (repeat notdef 256) (Z.to_nat c)) as [x|] eqn:E.
    + apply nth_error_In in E. apply repeat_spec in E. subst x. reflexivity.
    + apply nth_error_None in E. rewrite repeat_length in E. lia.
Qed.
