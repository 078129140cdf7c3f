(** The definition file line by line. *)
From Coq Require Import String List ZArith Lia Bool.
From Coq.Floats Require Import SpecFloat.
From Verif Require Import Base BaseProofs Float64 Ttf Subset FontMaker FontMakerSpec FontMakerGo.
Open Scope Z_scope.
Open Scope list_scope.

Fixpoint cw_lines (c : Z) (ws : list Z) : list bytes :=
  match ws with [] => [] | w :: ws => ([9] ++ B"me.cw[" ++ width_key c ++ B"]=" ++ itoa w) :: cw_lines (c + 1) ws end.
Definition head_lines (ty : bytes) : list bytes :=
  [B"package fonts //change this"; B"import ("; [9] ++ B"""github.com/signintech/gopdf"""; B")"; B"type " ++ ty ++ B" struct {";
   [9] ++ B"family string"; [9] ++ B"fonttype string"; [9] ++ B"name string"; [9] ++ B"desc  []gopdf.FontDescItem"; [9] ++ B"up int"; [9] ++ B"ut int";
   [9] ++ B"cw gopdf.FontCw"; [9] ++ B"enc string"; [9] ++ B"diff string"; B"}"; B"func (me * " ++ ty ++ B") Init(){"; [9] ++ B"me.cw = make(gopdf.FontCw)"].
Definition field_lines (encode : bytes) (i : info) (diff : bytes) : list bytes :=
  [[9] ++ B"me.up = " ++ itoa (i_up i); [9] ++ B"me.ut = " ++ itoa (i_ut i); [9] ++ B"me.fonttype = ""TrueType""";
   [9] ++ B"me.name = """ ++ i_name i ++ B""""; [9] ++ B"me.enc = """ ++ encode ++ B""""]
  ++ (match diff with [] => [] | _ => [[9] ++ B"me.diff = """ ++ diff ++ B""""] end).
Definition box_text (i : info) : bytes :=
  let '(x0, y0, x1, y1) := i_box i in B"[" ++ itoa x0 ++ B" " ++ itoa y0 ++ B" " ++ itoa x1 ++ B" " ++ itoa y1 ++ B"]".
Definition item_lines (i : info) : list bytes :=
  [[9] ++ B"me.desc = make([]gopdf.FontDescItem,8)";
   [9] ++ B"me.desc[0] =  gopdf.FontDescItem{ Key:""Ascent"",Val : """ ++ itoa (i_asc i) ++ B""" }";
   [9] ++ B"me.desc[1] =  gopdf.FontDescItem{ Key: ""Descent"", Val : """ ++ itoa (i_desc i) ++ B""" }";
   [9] ++ B"me.desc[2] =  gopdf.FontDescItem{ Key:""CapHeight"", Val :  """ ++ itoa (i_cap i) ++ B""" }";
   [9] ++ B"me.desc[3] =  gopdf.FontDescItem{ Key: ""Flags"", Val :  """ ++ itoa (desc_flags i) ++ B""" }";
   [9] ++ B"me.desc[4] =  gopdf.FontDescItem{ Key:""FontBBox"", Val :  """ ++ box_text i ++ B""" }";
   [9] ++ B"me.desc[5] =  gopdf.FontDescItem{ Key:""ItalicAngle"", Val :  """ ++ itoa (i_italic i) ++ B""" }";
   [9] ++ B"me.desc[6] =  gopdf.FontDescItem{ Key:""StemV"", Val :  """ ++ itoa (if i_bold i then 120 else 70) ++ B""" }";
   B" " ++ [9] ++ B"me.desc[7] =  gopdf.FontDescItem{ Key:""MissingWidth"", Val :  """ ++ itoa (i_missing i) ++ B""" } ";
   B" }"].
Definition get_lines (ty head ret : bytes) : list bytes := [B"func (me * " ++ ty ++ head; [9] ++ B"return " ++ ret].
Definition tail_lines (ty : bytes) : list bytes :=
  get_lines ty (B")GetType() string{") (B"me.fonttype") ++ [B"}"]
  ++ get_lines ty (B")GetName() string{") (B"me.name") ++ [B"}" ++ [9]]
  ++ get_lines ty (B")GetDesc() []gopdf.FontDescItem{") (B"me.desc") ++ [B"}"]
  ++ get_lines ty (B")GetUp() int{") (B"me.up") ++ [B"}"]
  ++ get_lines ty (B")GetUt()  int{") (B"me.ut") ++ [B"}"]
  ++ get_lines ty (B")GetCw() gopdf.FontCw{") (B"me.cw") ++ [B"}"]
  ++ get_lines ty (B")GetEnc() string{") (B"me.enc") ++ [B"}"]
  ++ get_lines ty (B")GetDiff() string {") (B"me.diff") ++ [B"}"]
  ++ get_lines ty (B") GetOriginalsize() int{") (B"98764") ++ [B"}"]
  ++ [B"func (me * " ++ ty ++ B")  SetFamily(family string){"; [9] ++ B"me.family = family"; B"}"]
  ++ get_lines ty (B") " ++ [9] ++ B"GetFamily() string{") (B"me.family") ++ [B"}"].

Lemma line_text_app : forall a c, line_text (a ++ c) = line_text a ++ line_text c.
Proof. intros. unfold line_text. apply flat_map_app. Qed.
Lemma width_lines_text : forall ws c, width_lines c ws = line_text (cw_lines c ws).
Proof.
  induction ws as [|w ws IH]; intros c; [reflexivity|]. cbn [width_lines cw_lines]. unfold line_text in *. cbn [flat_map]. rewrite <- IH.
  rewrite <- !app_assoc. reflexivity.
Qed.
Lemma definition_lines : forall ty encode i diff,
  definition_text ty encode i diff = line_text (head_lines ty ++ cw_lines 0 (i_widths i) ++ field_lines encode i diff ++ item_lines i ++ tail_lines ty).
Proof.
  intros ty encode i diff. rewrite !line_text_app, <- width_lines_text. unfold definition_text, width_array, head_lines, field_lines, item_lines, tail_lines, get_lines, getter, font_descriptor, box_text.
  destruct (i_box i) as [[[x0 y0] x1] y1]. destruct diff as [|dc dr]; rewrite !line_text_app; unfold line_text; cbn [flat_map]; rewrite <- ?app_assoc, ?app_nil_r; cbn [app];
  rewrite <- ?app_assoc, ?app_nil_r; reflexivity.
Qed.

(** ** What the lines say *)
Definition one_line (l : bytes) : bool := forallb (fun c => negb (c =? 10)) l.
Lemma one_line_ok : forall l, one_line l = true -> ~ In 10 l.
Proof. intros l H I. unfold one_line in H. rewrite forallb_forall in H. specialize (H 10 I). discriminate. Qed.
Lemma one_line_app : forall a c, one_line (a ++ c) = one_line a && one_line c.
Proof. intros. unfold one_line. apply forallb_app. Qed.
Lemma plain_line : forall x, forallb plain_char x = true -> one_line x = true.
Proof. intros x. unfold one_line. rewrite !forallb_forall. intros H c Hc. specialize (H c Hc). unfold plain_char in H. lia. Qed.
Lemma ident_line : forall x, identifier x -> one_line x = true.
Proof.
  intros x (c & r & -> & L & A). unfold one_line. cbn [forallb]. unfold letter in L. apply andb_true_iff. split; [lia|].
  rewrite !forallb_forall in *. intros y Hy. specialize (A y Hy). unfold alnum, letter, is_digit in A. lia.
Qed.

Definition says (l : bytes) (s : stmt) : Prop := one_line l = true /\ exists t, lex l = Some t /\ stmt_of t = s.
Lemma go_says : forall ls ss, Forall2 says ls ss -> go_file (line_text ls) = Some (ss ++ [SOther]).
Proof.
  intros ls ss H. enough (E : exists ts, Forall2 (fun l t => lex l = Some t /\ ~ In 10 l) ls ts /\ map stmt_of ts = ss).
  { destruct E as (ts & E & <-). apply go_lines. exact E. }
  induction H as [|l s ls ss (H1 & t & H2 & H3) H IH]; [exists []; split; [constructor|reflexivity]|]. destruct IH as (ts & T1 & T2).
  exists (t :: ts). split; [constructor; [split; [exact H2|apply one_line_ok; exact H1]|exact T1]|cbn [map]; congruence].
Qed.
Lemma says_lit : forall l s t, one_line l = true -> lex l = Some t -> stmt_of t = s -> says l s.
Proof. intros. split; eauto. Qed.
Lemma says_id : forall a ty c t1 s2 t2 te s, identifier ty -> one_line a = true -> one_line c = true ->
  lex_run Start a = Some (Start, t1) -> lex_run (InId ty) c = Some (s2, t2) -> lex_end s2 = Some te -> stmt_of (t1 ++ t2 ++ te) = s -> says (a ++ ty ++ c) s.
Proof.
  intros a ty c t1 s2 t2 te s I A C R1 R2 R3 S. split; [rewrite !one_line_app, A, C, ident_line by exact I; reflexivity|].
  exists (t1 ++ t2 ++ te). split; [|exact S]. unfold lex. rewrite lex_run_app, R1, lex_run_app, (lex_ident ty I), R2. cbn [app]. rewrite R3, <- app_assoc. reflexivity.
Qed.
Lemma says_str : forall a x c t1 s2 t2 te s, quotable x -> one_line a = true -> one_line c = true ->
  lex_run Start a = Some (InStr [], t1) -> lex_run (InStr x) c = Some (s2, t2) -> lex_end s2 = Some te -> stmt_of (t1 ++ t2 ++ te) = s -> says (a ++ x ++ c) s.
Proof.
  intros a x c t1 s2 t2 te s I A C R1 R2 R3 S. split; [rewrite !one_line_app, A, C, (plain_line x I); reflexivity|].
  exists (t1 ++ t2 ++ te). split; [|exact S]. unfold lex. rewrite lex_run_app, R1, lex_run_app, (lex_run_str x [] I). cbn [app]. rewrite R2, R3, <- app_assoc. reflexivity.
Qed.
Lemma says_int : forall a n t s, one_line a = true -> lex_run Start a = Some (Start, t) -> stmt_of (t ++ int_toks n) = s -> says (a ++ itoa n) s.
Proof.
  intros a n t s A R S. split; [rewrite one_line_app, A, (plain_line _ (plain_itoa n)); reflexivity|]. exists (t ++ int_toks n). split; [apply lex_int; exact R|exact S].
Qed.

Ltac lit_line := eapply says_lit; vm_compute; reflexivity.
Ltac id_line I := eapply says_id; [exact I|vm_compute; reflexivity..].
Ltac str_line q := eapply says_str; [exact q|vm_compute; reflexivity..].

Definition head_stmts (ty : bytes) : list stmt := repeat SOther 4 ++ [SType ty] ++ repeat SOther 10 ++ [SFunc ty (B"Init"); SOther].
Lemma head_says : forall ty, identifier ty -> Forall2 says (head_lines ty) (head_stmts ty).
Proof.
  intros ty I. unfold head_lines, head_stmts. cbn [repeat app]. repeat (apply Forall2_cons; [first [lit_line|id_line I]|]). apply Forall2_nil.
Qed.

(** Widths *)
Definition key_toks (c : Z) : list tok :=
  [TId (B"me"); TSym 46; TId (B"cw"); TSym 91; TId (B"gopdf"); TSym 46]
  ++ (if (32 <=? c) && (c <=? 126) then [TId (B"ToByte"); TSym 40; TStr [c]] else [TId (B"Chr"); TSym 40; TInt c]) ++ [TSym 41; TSym 93; TSym 61].
Definition key_line (c : Z) : bytes := [9] ++ B"me.cw[" ++ width_key c ++ B"]=".
Definition all_codes : list Z := map Z.of_nat (seq 0 256).
Lemma keys_lex : map (fun c => (one_line (key_line c), lex_run Start (key_line c))) all_codes = map (fun c => (true, Some (Start, key_toks c))) all_codes.
Proof. vm_compute. reflexivity. Qed.
Lemma map_eq_in : forall A C (f g : A -> C) l, map f l = map g l -> forall x, In x l -> f x = g x.
Proof. induction l as [|a l IH]; intros H x Hx; [destruct Hx|]. cbn [map] in H. injection H as H1 H2. destruct Hx as [<-|Hx]; auto. Qed.
Lemma in_codes : forall c, 0 <= c < 256 -> In c all_codes.
Proof. intros c H. unfold all_codes. apply in_map_iff. exists (Z.to_nat c). split; [lia|]. apply in_seq. lia. Qed.
Lemma key_lex : forall c, 0 <= c < 256 -> one_line (key_line c) = true /\ lex_run Start (key_line c) = Some (Start, key_toks c).
Proof. intros c H. pose proof (map_eq_in _ _ _ _ _ keys_lex c (in_codes c H)) as E. cbv beta in E. split; congruence. Qed.
Fixpoint cw_stmts (c : Z) (ws : list Z) : list stmt := match ws with [] => [] | w :: ws => SWidth c w :: cw_stmts (c + 1) ws end.
Lemma cw_says : forall ws c, 0 <= c -> c + Z.of_nat (List.length ws) <= 256 -> Forall2 says (cw_lines c ws) (cw_stmts c ws).
Proof.
  induction ws as [|w ws IH]; intros c H1 H2; cbn [cw_lines cw_stmts]; [constructor|]. cbn [List.length] in H2. constructor; [|apply IH; lia].
  destruct (key_lex c ltac:(lia)) as (K1 & K2). unfold key_line in *. rewrite !app_assoc in *. rewrite <- !app_assoc in *. 
  replace ([9] ++ B"me.cw[" ++ width_key c ++ B"]=" ++ itoa w) with (([9] ++ B"me.cw[" ++ width_key c ++ B"]=") ++ itoa w) by (rewrite <- !app_assoc; reflexivity).
  eapply says_int; [exact K1|exact K2|]. clear K1 K2.
  unfold key_toks, int_toks. destruct ((32 <=? c) && (c <=? 126)) eqn:Ec; destruct (Z.ltb_spec w 0); cbn; rewrite ?Z.mod_small by lia; rewrite ?Z.opp_involutive; reflexivity.
Qed.

(** Fields *)
Definition field_stmts (encode : bytes) (i : info) (diff : bytes) : list stmt :=
  [SField (B"up") (VInt (i_up i)); SField (B"ut") (VInt (i_ut i)); SField (B"fonttype") (VStr (B"TrueType")); SField (B"name") (VStr (i_name i)); SField (B"enc") (VStr encode)]
  ++ (match diff with [] => [] | _ => [SField (B"diff") (VStr diff)] end).
Lemma int_field : forall a f n, one_line a = true -> lex_run Start a = Some (Start, [TId (B"me"); TSym 46; TId f; TSym 61]) -> says (a ++ itoa n) (SField f (VInt n)).
Proof.
  intros a f n A R. eapply says_int; [exact A|exact R|].
  pose proof (signed_int n) as E. unfold int_toks in *. destruct (n <? 0); cbn in *; congruence.
Qed.
Lemma says_assoc : forall a c d s, says ((a ++ c) ++ d) s -> says (a ++ c ++ d) s.
Proof. intros a c d s H. rewrite app_assoc. exact H. Qed.
Lemma field_says : forall encode i diff, quotable (i_name i) -> quotable encode -> quotable diff -> Forall2 says (field_lines encode i diff) (field_stmts encode i diff).
Proof.
  intros encode i diff Q1 Q2 Q3. unfold field_lines, field_stmts. apply Forall2_app.
  - apply Forall2_cons; [apply says_assoc, int_field; vm_compute; reflexivity|]. apply Forall2_cons; [apply says_assoc, int_field; vm_compute; reflexivity|].
    apply Forall2_cons; [lit_line|].
    set (x := i_name i) in *. clearbody x. apply Forall2_cons; [apply says_assoc; str_line Q1|]. apply Forall2_cons; [apply says_assoc; str_line Q2|]. apply Forall2_nil.
  - destruct diff as [|dc dr]; [apply Forall2_nil|]. set (x := dc :: dr) in *. clearbody x. apply Forall2_cons; [apply says_assoc; str_line Q3|apply Forall2_nil].
Qed.

(** Descriptor *)
Definition item_stmts (i : info) : list stmt :=
  [SOther; SItem 0 (B"Ascent") (itoa (i_asc i)); SItem 1 (B"Descent") (itoa (i_desc i)); SItem 2 (B"CapHeight") (itoa (i_cap i)); SItem 3 (B"Flags") (itoa (desc_flags i));
   SItem 4 (B"FontBBox") (box_text i); SItem 5 (B"ItalicAngle") (itoa (i_italic i)); SItem 6 (B"StemV") (itoa (if i_bold i then 120 else 70));
   SItem 7 (B"MissingWidth") (itoa (i_missing i)); SOther].
Lemma box_plain : forall i, quotable (box_text i).
Proof.
  intros i. unfold quotable, box_text. destruct (i_box i) as [[[x0 y0] x1] y1]. rewrite !forallb_app, !plain_itoa. reflexivity.
Qed.
Lemma itoa_quot : forall n, quotable (itoa n).
Proof. exact plain_itoa. Qed.
Ltac item_line L := apply says_assoc; match goal with |- says (_ ++ ?x ++ _) _ => let Q := fresh in assert (Q : quotable x) by apply L; revert Q; generalize x end; let y := fresh in let Q := fresh in intros y Q; str_line Q.
Lemma item_says : forall i, Forall2 says (item_lines i) (item_stmts i).
Proof.
  intros i. unfold item_lines, item_stmts.
  apply Forall2_cons; [lit_line|].
  do 4 (apply Forall2_cons; [item_line itoa_quot|]).
  apply Forall2_cons; [item_line box_plain|].
  do 2 (apply Forall2_cons; [item_line itoa_quot|]).
  apply Forall2_cons; [|apply Forall2_cons; [lit_line|apply Forall2_nil]].
  rewrite app_assoc. item_line itoa_quot.
Qed.

(** Methods *)
Definition ret_me (f : bytes) : list tok := [TId (B"me"); TSym 46; TId f].
Definition get_stmts (ty m : bytes) (e : list tok) : list stmt := [SFunc ty m; SReturn e; SOther].
Definition tail_stmts (ty : bytes) : list stmt :=
  get_stmts ty (B"GetType") (ret_me (B"fonttype")) ++ get_stmts ty (B"GetName") (ret_me (B"name")) ++ get_stmts ty (B"GetDesc") (ret_me (B"desc"))
  ++ get_stmts ty (B"GetUp") (ret_me (B"up")) ++ get_stmts ty (B"GetUt") (ret_me (B"ut")) ++ get_stmts ty (B"GetCw") (ret_me (B"cw"))
  ++ get_stmts ty (B"GetEnc") (ret_me (B"enc")) ++ get_stmts ty (B"GetDiff") (ret_me (B"diff")) ++ get_stmts ty (B"GetOriginalsize") [TInt 98764]
  ++ [SFunc ty (B"SetFamily"); SOther; SOther] ++ get_stmts ty (B"GetFamily") (ret_me (B"family")).
Lemma tail_says : forall ty, identifier ty -> Forall2 says (tail_lines ty) (tail_stmts ty).
Proof.
  intros ty I. unfold tail_lines, tail_stmts, get_lines, get_stmts. cbn [app]. repeat (apply Forall2_cons; [first [lit_line|id_line I]|]). apply Forall2_nil.
Qed.

Definition all_stmts (ty encode : bytes) (i : info) (diff : bytes) : list stmt :=
  head_stmts ty ++ cw_stmts 0 (i_widths i) ++ field_stmts encode i diff ++ item_stmts i ++ tail_stmts ty ++ [SOther].
Theorem definition_read : forall ty encode i diff, identifier ty -> quotable (i_name i) -> quotable encode -> quotable diff -> List.length (i_widths i) = 256%nat ->
  go_file (definition_text ty encode i diff) = Some (all_stmts ty encode i diff).
Proof.
  intros ty encode i diff I Q1 Q2 Q3 L. rewrite definition_lines, (go_says _ (head_stmts ty ++ cw_stmts 0 (i_widths i) ++ field_stmts encode i diff ++ item_stmts i ++ tail_stmts ty)).
  - unfold all_stmts. rewrite <- !app_assoc. reflexivity.
  - apply Forall2_app; [apply head_says; exact I|]. apply Forall2_app; [apply cw_says; lia|]. apply Forall2_app; [apply field_says; assumption|].
    apply Forall2_app; [apply item_says|apply tail_says; exact I].
Qed.
