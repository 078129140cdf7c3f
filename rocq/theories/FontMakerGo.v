(** Reading the definition file back. *)
From Coq Require Import String List ZArith Lia Bool.
From Coq.Floats Require Import SpecFloat.
From Verif Require Import Base BaseProofs Float64 Ttf Subset FontMaker FontMakerSpec.
Open Scope Z_scope.
Open Scope list_scope.

(** ** Lexing in pieces *)
Lemma lex_run_app : forall a s b, lex_run s (a ++ b) =
  match lex_run s a with
  | Some (s1, t1) => match lex_run s1 b with Some (s2, t2) => Some (s2, t1 ++ t2) | None => None end
  | None => None
  end.
Proof.
  induction a as [|c a IH]; intros s b; cbn [app lex_run].
  - destruct (lex_run s b) as [(s2, t2)|]; reflexivity.
  - destruct (lex_step s c) as [(s1, t1)|]; [|reflexivity]. rewrite IH. destruct (lex_run s1 a) as [(s2, t2)|]; [|reflexivity].
    destruct (lex_run s2 b) as [(s3, t3)|]; [|reflexivity]. rewrite app_assoc. reflexivity.
Qed.
Lemma lex_run_str : forall x a, forallb plain_char x = true -> lex_run (InStr a) x = Some (InStr (a ++ x), []).
Proof.
  induction x as [|c x IH]; intros a H; cbn [lex_run]; [rewrite app_nil_r; reflexivity|]. cbn [forallb] in H. apply andb_true_iff in H as (H1 & H2).
  cbn [lex_step]. unfold plain_char in *. destruct (c =? 34) eqn:E1; [lia|]. destruct (c =? 92) eqn:E2; [lia|].
  rewrite H1. rewrite IH by exact H2. rewrite <- app_assoc. reflexivity.
Qed.
Lemma lex_run_id : forall x a, forallb alnum x = true -> lex_run (InId a) x = Some (InId (a ++ x), []).
Proof.
  induction x as [|c x IH]; intros a H; cbn [lex_run]; [rewrite app_nil_r; reflexivity|]. cbn [forallb] in H. apply andb_true_iff in H as (H1 & H2).
  cbn [lex_step]. rewrite H1. rewrite IH by exact H2. rewrite <- app_assoc. reflexivity.
Qed.
Lemma lex_run_num : forall x a, forallb is_digit x = true -> lex_run (InNum a) x = Some (InNum (a ++ x), []).
Proof.
  induction x as [|c x IH]; intros a H; cbn [lex_run]; [rewrite app_nil_r; reflexivity|]. cbn [forallb] in H. apply andb_true_iff in H as (H1 & H2).
  cbn [lex_step]. rewrite H1. rewrite IH by exact H2. rewrite <- app_assoc. reflexivity.
Qed.
Lemma lex_ident : forall x, identifier x -> lex_run Start x = Some (InId x, []).
Proof.
  intros x (c & r & -> & L & A). cbn [lex_run lex_step]. unfold start_step.
  assert (N : blank c = false /\ (c =? 34) = false /\ is_digit c = false) by (unfold blank, letter, is_digit in *; lia).
  destruct N as (-> & -> & ->). rewrite L. rewrite lex_run_id by exact A. reflexivity.
Qed.

(** ** Numbers *)
Lemma digits_lead : forall f n acc, 0 < n < 2 ^ Z.of_nat f -> exists c r, digits f n acc = c :: r ++ acc /\ c <> 48.
Proof.
  induction f as [|f IH]; intros n acc H; [change (2 ^ Z.of_nat 0) with 1 in H; lia|]. cbn [digits]. destruct (Z.ltb_spec n 10).
  - exists (48 + n), []. split; [reflexivity|lia].
  - rewrite Nat2Z.inj_succ, Z.pow_succ_r in H by lia. destruct (IH (n / 10) ((48 + n mod 10) :: acc)) as (c & r & E & N).
    { split; [apply Z.div_str_pos; lia|]. apply Z.div_lt_upper_bound; lia. }
    exists c, (r ++ [48 + n mod 10]). split; [rewrite E, <- app_assoc; reflexivity|exact N].
Qed.
Lemma utoa_lead : forall n, 0 < n -> exists c r, utoa n = c :: r /\ c <> 48.
Proof.
  intros n H. unfold utoa. destruct (digits_lead (Datatypes.S (Z.to_nat (Z.log2 n))) n []) as (c & r & E & N).
  - split; [lia|]. rewrite Nat2Z.inj_succ, Z2Nat.id by apply Z.log2_nonneg. apply Z.log2_spec. lia.
  - rewrite app_nil_r in E. eauto.
Qed.
Lemma number_tok_utoa : forall n, 0 <= n -> number_tok (utoa n) = Some (TInt n).
Proof.
  intros n H. unfold number_tok. assert (A : option_map TInt (atou (utoa n)) = Some (TInt n)) by (rewrite atou_utoa by exact H; reflexivity).
  destruct (Z.eq_dec n 0) as [->|N]; [reflexivity|]. destruct (utoa_lead n ltac:(lia)) as (c & r & E & Nc). rewrite E in *. destruct r as [|c2 r]; [exact A|].
  destruct (Z.eqb_spec c 48); [contradiction|exact A].
Qed.
Definition int_toks (n : Z) : list tok := if n <? 0 then [TSym 45; TInt (- n)] else [TInt n].
Lemma utoa_run : forall n, 0 <= n -> lex_run Start (utoa n) = Some (InNum (utoa n), []).
Proof.
  intros n H. pose proof (utoa_digits n H) as D. destruct (utoa n) as [|c r] eqn:E; [destruct (utoa_nonnil n E)|]. cbn [forallb] in D. apply andb_true_iff in D as (D1 & D2).
  cbn [lex_run lex_step]. unfold start_step. assert (N : blank c = false /\ (c =? 34) = false) by (unfold blank, is_digit in *; lia).
  destruct N as (-> & ->). rewrite D1. rewrite lex_run_num by exact D2. reflexivity.
Qed.
Lemma lex_int : forall pre t n, lex_run Start pre = Some (Start, t) -> lex (pre ++ itoa n) = Some (t ++ int_toks n).
Proof.
  intros pre t n H. unfold lex. rewrite lex_run_app, H. unfold itoa, int_toks. destruct (Z.ltb_spec n 0).
  - cbn [lex_run lex_step]. change (start_step 45) with (Some (Start, [TSym 45])). cbv iota beta. rewrite utoa_run by lia. cbn [lex_end]. rewrite number_tok_utoa by lia.
    cbn [option_map app]. rewrite <- app_assoc. reflexivity.
  - rewrite utoa_run by lia. cbn [lex_end]. rewrite number_tok_utoa by lia. cbn [option_map]. rewrite app_nil_r. reflexivity.
Qed.
Lemma signed_int : forall n, signed (int_toks n) = Some n.
Proof. intros n. unfold int_toks. destruct (Z.ltb_spec n 0); cbn; [f_equal; lia|reflexivity]. Qed.
Lemma plain_itoa : forall n, forallb plain_char (itoa n) = true.
Proof.
  intros n. assert (D : forall s, forallb is_digit s = true -> forallb plain_char s = true).
  { intros s. rewrite !forallb_forall. intros H c Hc. specialize (H c Hc). unfold is_digit, plain_char in *. lia. }
  unfold itoa. destruct (Z.ltb_spec n 0); [cbn [forallb]; rewrite D by (apply utoa_digits; lia); reflexivity|apply D, utoa_digits; lia].
Qed.

(** ** Lines *)
Definition line_text (ls : list bytes) : bytes := flat_map (fun l => l ++ [10]) ls.
Lemma split_line : forall l r, ~ In 10 l -> split1 10 (l ++ [10] ++ r) = l :: split1 10 r.
Proof.
  induction l as [|c l IH]; intros r H; cbn [app split1]; [reflexivity|]. destruct (Z.eqb_spec c 10); [subst c; destruct H; left; reflexivity|].
  change (l ++ 10 :: r) with (l ++ [10] ++ r). rewrite IH by (intros I; apply H; right; exact I). reflexivity.
Qed.
Lemma go_lines : forall ls ts, Forall2 (fun l t => lex l = Some t /\ ~ In 10 l) ls ts -> go_file (line_text ls) = Some (map stmt_of ts ++ [SOther]).
Proof.
  intros ls ts H. unfold go_file. enough (E : sequence (map lex (split1 10 (line_text ls))) = Some (ts ++ [[]])).
  { rewrite E. cbn [option_map]. rewrite map_app. reflexivity. }
  induction H as [|l t ls ts (H1 & H2) H IH]; [reflexivity|]. cbn [line_text flat_map]. rewrite <- app_assoc, split_line by exact H2.
  cbn [map sequence]. rewrite H1. fold (line_text ls). rewrite IH. reflexivity.
Qed.
