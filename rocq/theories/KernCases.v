(** Cases of C89: fonts with a kern table. *)
From Coq Require Import String List ZArith Lia Bool.
From Coq.Floats Require Import SpecFloat.
From Verif Require Import Base BaseProofs Output Float64 Ttf TtfSpec TtfProofs TtfTables Subset Text TextSpec TestFont TextCases GoPdf GoPdfSpec GoPdfDrawSpec GoPdfSetSpec GoPdfFonts GoPdfCases KernSpec KernTable.
Open Scope Z_scope.
Open Scope list_scope.

(** ** Fonts *)
Definition t_sub (coverage : Z) (ps : list (Z * Z * Z)) : bytes :=
  w2 0 ++ w2 (14 + 6 * Z.of_nat (List.length ps)) ++ w2 coverage ++ w2 (Z.of_nat (List.length ps)) ++ zs 6 ++ flat_map (fun x => w2 (fst (fst x)) ++ w2 (snd (fst x)) ++ w2 (snd x mod 65536)) ps.
Definition kerned_font (subs : list (Z * list (Z * Z * Z))) : bytes :=
  font_file (tables_of 2000 5 ++ [(B"kern", w2 0 ++ w2 (Z.of_nat (List.length subs)) ++ flat_map (fun s => t_sub (fst s) (snd s)) subs)]).
(** One subtable; two; one of format 2; one with a reserved bit. *)
Definition font_one : bytes := Eval vm_compute in kerned_font [(1, [(1, 2, -100); (2, 1, 50); (2, 1, 60)])].
Definition font_two : bytes := Eval vm_compute in kerned_font [(1, [(1, 2, -100)]); (1, [(2, 1, 50)])].
Definition font_classes : bytes := Eval vm_compute in kerned_font [(513, [(1, 2, -100)])].
Definition font_bit : bytes := Eval vm_compute in kerned_font [(17, [(1, 2, -100)])].

(** ** What they say *)
Definition kern_off (d : bytes) : Z := match locate d (B"kern") with Some (o, _) => o | None => 0 end.
Definition is_u16 (d : bytes) (p v : Z) : bool := match u16 d p with Some x => x =? v | None => false end.
Lemma is_u16_ok : forall d p v, is_u16 d p v = true -> u16 d p = Some v.
Proof. intros d p v H. unfold is_u16 in H. destruct (u16 d p); [f_equal; lia|discriminate]. Qed.
Fixpoint check_subs (d : bytes) (p : Z) (l : list sub) : bool :=
  match l with
  | [] => true
  | s :: l => (sub_pos s =? p) && is_u16 d (p + 4) (sub_coverage s) && is_u16 d (p + 6) (sub_count s) && (p + 14 + 6 * sub_count s <=? blen d) && check_subs d (p + 14 + 6 * sub_count s) l
  end.
Lemma check_subs_ok : forall d l p, check_subs d p l = true -> subtables d p l.
Proof.
  intros d. induction l as [|[q c n] l IH]; intros p H; [constructor|]. cbn [check_subs sub_pos sub_coverage sub_count] in H. repeat (apply andb_true_iff in H; destruct H as (H & ?)).
  assert (q = p) as -> by lia. constructor; [apply is_u16_ok; assumption|apply is_u16_ok; assumption|lia|apply IH; assumption].
Qed.
Definition check_kern (d : bytes) (l : list sub) : bool :=
  match locate d (B"kern") with Some (k, _) => is_u16 d k 0 && is_u16 d (k + 2) (Z.of_nat (List.length l)) && check_subs d (k + 4) l | None => false end.
Lemma check_kern_ok : forall d l, check_kern d l = true -> kern_table d l.
Proof.
  intros d l H. unfold check_kern in H. destruct (locate d (B"kern")) as [[k len]|] eqn:E; [|discriminate]. repeat (apply andb_true_iff in H; destruct H as (H & ?)).
  exists k, len. split; [apply locate_ok; exact E|]. split; [rewrite (is_u16_ok _ _ _ H); discriminate|]. split; [apply is_u16_ok; assumption|apply check_subs_ok; assumption].
Qed.
Definition pair_is (d : bytes) (p i l r v : Z) : bool := is_u16 d (p + 14 + 6 * i) l && is_u16 d (p + 14 + 6 * i + 2) r && match s16 d (p + 14 + 6 * i + 4) with Some x => x =? v | None => false end.
Lemma pair_is_ok : forall d p i l r v, pair_is d p i l r v = true -> pair_at d p i l r v.
Proof.
  intros d p i l r v H. unfold pair_is in H. repeat (apply andb_true_iff in H; destruct H as (H & ?)). split; [apply is_u16_ok; assumption|]. split; [apply is_u16_ok; assumption|].
  destruct (s16 d (p + 14 + 6 * i + 4)); [f_equal; lia|discriminate].
Qed.
Definition other_pair (d : bytes) (p i l r : Z) : bool := negb (is_u16 d (p + 14 + 6 * i) l && is_u16 d (p + 14 + 6 * i + 2) r).
Lemma other_pair_ok : forall d p i l r v, other_pair d p i l r = true -> ~ pair_at d p i l r v.
Proof. intros d p i l r v H (P1 & P2 & _). unfold other_pair, is_u16 in H. rewrite P1, P2, !Z.eqb_refl in H. discriminate. Qed.
Definition check_value (d : bytes) (s : sub) (i l r v : Z) : bool :=
  (0 <=? i) && (i <? sub_count s) && pair_is d (sub_pos s) i l r v && forallb (fun j => (j <=? i) || other_pair d (sub_pos s) j l r) (upto (sub_count s)).
Lemma check_value_ok : forall d s i l r v, check_value d s i l r v = true -> sub_value d s l r v.
Proof.
  intros d s i l r v H. unfold check_value in H. apply andb_true_iff in H. destruct H as (H & N). apply andb_true_iff in H. destruct H as (H & P). left. exists i. split; [lia|]. split; [apply pair_is_ok; exact P|].
  intros j v' Hj. rewrite forallb_forall in N. specialize (N j (in_upto (sub_count s) j ltac:(lia))). apply orb_true_iff in N. destruct N as [N|N]; [lia|]. apply other_pair_ok. exact N.
Qed.
Definition check_none (d : bytes) (s : sub) (l r : Z) : bool := forallb (fun j => other_pair d (sub_pos s) j l r) (upto (sub_count s)).
Lemma check_none_ok : forall d s l r, check_none d s l r = true -> sub_value d s l r 0.
Proof. intros d s l r H. right. split; [|reflexivity]. intros i v' Hi. unfold check_none in H. rewrite forallb_forall in H. apply other_pair_ok. apply H. apply in_upto. exact Hi. Qed.

(** ** Documents *)
Definition with_font (d : bytes) : list gcall := [AddFont (B"K") true 0 (Some d) []; AddPage (fofz 100, fofz 50); SetFont (B"K") 0 12; Text (B"ABA")].
Definition saved_one := save gw_id [] page_cfg (with_font font_one).
Definition ran (d : bytes) := run gw_id [] page_cfg (with_font d).
Definition first_font (d : bytes) : option gfont := nth_error (g_fonts (r_state (ran d))) 0.
Definition units_between (d : bytes) (p x : Z * Z) : option Z := option_map (fun f => kern_units f (Some p) x) (first_font d).

Definition one_sub : sub := mkSub (kern_off font_one + 4) 1 3.
(** In the file: the text A B A with 50 and -30 thousandths taken back. *)
Lemma one_case : Forall bytep font_one /\ units_per_em font_one 2000 /\ kern_table font_one [one_sub] /\ sub_value font_one one_sub 1 2 (-100) /\ sub_value font_one one_sub 2 1 60 /\ sub_value font_one one_sub 1 1 0 /\
  map (fun a => (af_file a, af_kerning a)) (added (s_trace saved_one)) = [(font_one, true)] /\
  contains (B"[<0001>50<0002>-30<0001>] TJ") (s_file saved_one) = true.
Proof.
  split; [apply small_bytes; vm_compute; reflexivity|]. split.
  { destruct (locate font_one (B"head")) as [[h hl]|] eqn:E; [|vm_compute in E; discriminate E]. exists h, hl. split; [apply locate_ok; exact E|]. vm_compute in E. assert (Eh : h = 404) by congruence. rewrite Eh. vm_compute. reflexivity. }
  split; [apply check_kern_ok; vm_compute; reflexivity|]. split; [apply (check_value_ok _ _ 0); vm_compute; reflexivity|]. split; [apply (check_value_ok _ _ 2); vm_compute; reflexivity|].
  split; [apply check_none_ok; vm_compute; reflexivity|]. split; vm_compute; reflexivity.
Qed.

(** The first of two subtables is lost. *)
Definition two_subs : sub * sub := (mkSub (kern_off font_two + 4) 1 1, mkSub (kern_off font_two + 24) 1 1).
Lemma font_exists : forall d, option_map (fun _ => tt) (first_font d) = Some tt -> exists f, nth_error (g_fonts (r_state (ran d))) 0 = Some f.
Proof. intros d H. unfold first_font in H. destruct (nth_error _ 0) as [f|]; [exists f; reflexivity|discriminate H]. Qed.
Lemma units_case : forall d p x v, r_ok (ran d) = true -> no_errors (r_trace (ran d)) = true -> units_between d p x = Some v ->
  exists w rnd cfg g0 t g f, g_start rnd cfg gp0 = Ok g0 /\ runs w g0 t g /\ map (fun x => snd (fst x)) t = with_font d /\ Forall (fun x => snd x = None) t /\ nth_error (g_fonts g) 0 = Some f /\ kern_units f (Some p) x = v.
Proof.
  intros d p x v O N U. destruct (r_parts gw_id [] page_cfg (with_font d) (ran d) eq_refl O) as (g0 & S & R & M). unfold units_between, first_font in U. destruct (nth_error (g_fonts (r_state (ran d))) 0) as [f|] eqn:E; [|discriminate U].
  exists gw_id, [], page_cfg, g0, (r_trace (ran d)), (r_state (ran d)), f. split; [exact S|]. split; [exact R|]. split; [exact M|]. split; [apply no_errors_ok; exact N|]. split; [exact E|]. cbn [option_map] in U. congruence.
Qed.
Lemma two_case : exists d s1 s2, kern_table d [s1; s2] /\ sub_coverage s1 = 1 /\ sub_coverage s2 = 1 /\ sub_value d s1 1 2 (-100) /\ sub_value d s2 1 2 0 /\
  exists w rnd cfg g0 t g f, g_start rnd cfg gp0 = Ok g0 /\ runs w g0 t g /\ map (fun x => snd (fst x)) t = with_font d /\ Forall (fun x => snd x = None) t /\ nth_error (g_fonts g) 0 = Some f /\ kern_units f (Some (65, 1)) (66, 2) = 0.
Proof.
  exists font_two, (fst two_subs), (snd two_subs). split; [apply check_kern_ok; vm_compute; reflexivity|]. split; [reflexivity|]. split; [reflexivity|]. split; [apply (check_value_ok _ _ 0); vm_compute; reflexivity|].
  split; [apply check_none_ok; vm_compute; reflexivity|]. apply units_case; vm_compute; reflexivity.
Qed.
(** A subtable of format 2, which has classes and no pairs, is read as pairs. *)
Definition class_sub : sub := mkSub (kern_off font_classes + 4) 513 1.
Lemma classes_case : exists d s, kern_table d [s] /\ format s = 2 /\
  exists w rnd cfg g0 t g f, g_start rnd cfg gp0 = Ok g0 /\ runs w g0 t g /\ map (fun x => snd (fst x)) t = with_font d /\ Forall (fun x => snd x = None) t /\ nth_error (g_fonts g) 0 = Some f /\ kern_units f (Some (65, 1)) (66, 2) = -50.
Proof.
  exists font_classes, class_sub. split; [apply check_kern_ok; vm_compute; reflexivity|]. split; [reflexivity|]. apply units_case; vm_compute; reflexivity.
Qed.
(** A reserved bit: the font is not added. *)
Definition bit_sub : sub := mkSub (kern_off font_bit + 4) 17 1.
Lemma bit_case : Forall bytep font_bit /\ (exists t, parseTtf font_bit = Ok t) /\ kern_table font_bit [bit_sub] /\ ~ Forall reserved_clear [bit_sub].
Proof.
  split; [apply small_bytes; vm_compute; reflexivity|]. split; [eexists; vm_compute; reflexivity|]. split; [apply check_kern_ok; vm_compute; reflexivity|]. intros F. inversion F as [|x y H _]; subst. discriminate H.
Qed.
(** With a function for the pairs it is asked with the value of the table. *)
Definition doubled : kernfn := fun _ _ _ _ v => 2 * v.
Definition over_calls : list gcall := [AddFont (B"K") true 0 (Some font_one) []; KernOverride (B"K") (Some doubled); AddPage (fofz 100, fofz 50); SetFont (B"K") 0 12; Text (B"ABA")].
Definition saved_over := save gw_id [] page_cfg over_calls.
Lemma over_case : map (fun a => (af_file a, af_kerning a)) (added (s_trace saved_over)) = [(font_one, true)] /\ option_map (fun a => option_map (fun h => h 0 0 0 0 21) (af_over a)) (nth_error (added (s_trace saved_over)) 0) = Some (Some 42) /\
  contains (B"[<0001>100<0002>-60<0001>] TJ") (s_file saved_over) = true.
Proof. split; [vm_compute; reflexivity|]. split; vm_compute; reflexivity. Qed.
