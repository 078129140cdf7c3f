(** The font objects as a reader of PDF sees them. *)
From Coq Require Import String List ZArith Lia Bool.
From Verif Require Import Base BaseProofs CryptoSpec PdfSyntax PdfSyntaxProofs HexProofs Ttf TtfSpec TtfProofs TtfTables Subset.
Open Scope Z_scope.
Open Scope list_scope.

Ltac regw := repeat (apply Forall_cons; [reflexivity|]); apply Forall_nil.

Ltac okeq H := match type of H with Ok ?x = Ok ?o => assert (o = x) by congruence; subst o; clear H end.

(** Names pdft can write: regular characters, spaces and slashes (the last two
    become plus signs). *)
Definition plain_name (n : bytes) : Prop := Forall (fun c => regular c = true \/ c = 32 \/ c = 47) n.
Definition plus_name (n : bytes) : bytes := map (fun c => if (c =? 32) || (c =? 47) then 43 else c) n.

Lemma subset_name_eq : forall n, subset_name n = plus_name n.
Proof.
  unfold subset_name, plus_name, replace1. induction n as [|c n IH]; [reflexivity|]. cbn [flat_map map].
  rewrite flat_map_app, IH. destruct (Z.eqb_spec c 32) as [->|]; [reflexivity|]. cbn [flat_map orb app]. destruct (Z.eqb_spec c 47) as [->|]; [reflexivity|]. reflexivity.
Qed.
Lemma plus_reg : forall n, plain_name n -> reg_word (plus_name n).
Proof.
  intros n H. unfold plus_name, reg_word. induction H as [|c n [Hc|[->| ->]] H IH]; cbn [map]; constructor; auto.
  destruct (Z.eqb_spec c 32); [reflexivity|]. destruct (Z.eqb_spec c 47); [reflexivity|]. exact Hc.
Qed.

Lemma last_name : forall k n r, reg_word k -> reg_word n -> reads_entries (47 :: k ++ B" /" ++ n ++ [10] ++ B">>" ++ r) [(k, PName n)] r.
Proof. intros. apply line_name; auto. apply (entries_end []). apply Forall_nil. Qed.

Lemma line_ref1 : forall k n r l r2, reg_word k -> reads_entries r l r2 ->
  reads_entries (47 :: k ++ B" [" ++ itoa n ++ B" 0 R]" ++ [10] ++ r) ((k, PArr [PRef n 0]) :: l) r2.
Proof.
  intros k n r l r2 Hk Hl. eapply line_any; eauto; [reflexivity|]. apply (reads_arr (B" ")); [blanks|].
  destruct (itoa_hd n) as (c & u & E & W & D).
  eapply items_step with (c := c).
  - rewrite E. cbn [app]. apply skip_start; auto.
  - unfold is_digit in D. lia.
  - apply (reads_ref [] n 0 (B"]" ++ [10] ++ r)); [apply Forall_nil|lia|reflexivity].
  - apply (items_end []). apply Forall_nil.
Qed.

Definition font_dict (family : bytes) (cid uni : Z) : list (bytes * pv) :=
  [(B"BaseFont", PName (plus_name family)); (B"DescendantFonts", PArr [PRef cid 0]); (B"Encoding", PName (B"Identity-H"));
   (B"Subtype", PName (B"Type0")); (B"ToUnicode", PRef uni 0); (B"Type", PName (B"Font"))].
Theorem font_obj_reads : forall family cid uni, plain_name family -> reads (font_obj family cid uni) (PDict (font_dict family cid uni)) [10].
Proof.
  intros family cid uni H. unfold font_obj. rewrite subset_name_eq. pose proof (plus_reg _ H).
  apply (reads_dict []); [apply Forall_nil|]. apply entries_skip; [blanks|].
  apply (line_name (B"BaseFont")); [regw|auto|].
  apply (line_ref1 (B"DescendantFonts")); [regw|].
  apply (line_name (B"Encoding") (B"Identity-H")); [regw|regw|].
  apply (line_name (B"Subtype") (B"Type0")); [regw|regw|].
  apply (line_ref (B"ToUnicode")); [regw|].
  apply (last_name (B"Type") (B"Font")); regw.
Qed.

(** ** Widths *)
(** Specification: the array W of a CIDFont (ISO 32000-1, 9.7.4.3), either a first
    code and the widths from there on, or two codes and a width for all between. *)
Fixpoint width_in (l : list pv) (g : Z) : option Z :=
  match l with
  | PInt c :: PArr ws :: r =>
    if (c <=? g) && (g <? c + Z.of_nat (List.length ws))
    then match nth_error ws (Z.to_nat (g - c)) with Some (PInt w) => Some w | _ => None end
    else width_in r g
  | PInt a :: PInt b :: PInt w :: r => if (a <=? g) && (g <=? b) then Some w else width_in r g
  | _ => None
  end.
Definition w_items (t : ttf) (l : list (Z * Z)) : list pv := flat_map (fun x => [PInt (fst x); PArr [PInt (snd x)]]) l.

Lemma w_array_reads : forall t gs s, w_array t gs = Ok s ->
  exists ws, Forall2 (fun g w => glyph_width t g = Ok w) gs ws /\ forall r, reads_items (s ++ B"]" ++ r) (w_items t (combine gs ws)) r.
Proof.
  intros t. induction gs as [|g gs IH]; intros s H; cbn [w_array] in H.
  - injection H as <-. exists []. split; [constructor|]. intros r. apply (items_end []). apply Forall_nil.
  - apply bind_ok in H as (w & W & H). apply bind_ok in H as (l & L & H).
    assert (s = itoa g ++ B"[" ++ itoa w ++ B"]" ++ l) by congruence. subst s. clear H.
    destruct (IH _ L) as (ws & F & R). exists (w :: ws). split; [constructor; auto|]. intros r. specialize (R r).
    cbn [combine w_items flat_map app fst snd]. fold (w_items t (combine gs ws)). rewrite <- !app_assoc.
    destruct (itoa_hd g) as (c & u & E & Wc & D).
    eapply items_step with (c := c).
    + rewrite E. cbn [app]. apply skip_start; auto.
    + unfold is_digit in D. lia.
    + apply (reads_int [] g); [apply Forall_nil|reflexivity|]. apply (ref_none [] 91); [apply Forall_nil|reflexivity|reflexivity].
    + apply (items_step ([] ++ B"[" ++ itoa w ++ B"]" ++ l ++ B"]" ++ r) 91 (itoa w ++ B"]" ++ l ++ B"]" ++ r) _ (l ++ B"]" ++ r)); [reflexivity|discriminate| |exact R].
      apply (reads_arr []); [apply Forall_nil|].
      destruct (itoa_hd w) as (c' & u' & E' & Wc' & D'). eapply items_step with (c := c').
      * rewrite E'. cbn [app]. apply skip_start; auto.
      * unfold is_digit in D'. lia.
      * apply (reads_int [] w); [apply Forall_nil|reflexivity|]. apply (ref_none [] 93); [apply Forall_nil|reflexivity|reflexivity].
      * apply (items_end []). apply Forall_nil.
Qed.

Lemma w_items_in : forall t gs ws g w, Forall2 (fun g w => glyph_width t g = Ok w) gs ws -> In g gs -> glyph_width t g = Ok w ->
  width_in (w_items t (combine gs ws)) g = Some w.
Proof.
  intros t gs ws g w F. induction F as [|g' w' gs ws H F IH]; intros I W; [destruct I|].
  cbn [combine w_items flat_map app fst snd width_in List.length]. fold (w_items t (combine gs ws)).
  destruct (Z.leb_spec g' g); cbn [andb]; [destruct (Z.ltb_spec g (g' + Z.of_nat 1))|].
  - assert (g' = g) by lia. subst g'. rewrite Z.sub_diag. cbn. congruence.
  - apply IH; auto. destruct I as [->|I]; [lia|auto].
  - apply IH; auto. destruct I as [->|I]; [lia|auto].
Qed.
Lemma w_items_out : forall t gs ws g, Forall2 (fun g w => glyph_width t g = Ok w) gs ws -> ~ In g gs -> width_in (w_items t (combine gs ws)) g = None.
Proof.
  intros t gs ws g F. induction F as [|g' w' gs ws H F IH]; intros I; [reflexivity|].
  cbn [combine w_items flat_map app fst snd width_in List.length]. fold (w_items t (combine gs ws)). cbn [In] in I.
  destruct (Z.leb_spec g' g); cbn [andb]; [destruct (Z.ltb_spec g (g' + Z.of_nat 1))|]; [exfalso; apply I; left; lia|apply IH; tauto|apply IH; tauto].
Qed.

Definition cid_dict (t : ttf) (family : bytes) (desc : Z) (ws : list (Z * Z)) : list (bytes * pv) :=
  [(B"BaseFont", PName (plus_name family));
   (B"CIDSystemInfo", PDict [(B"Ordering", PStr (B"Identity")); (B"Registry", PStr (B"Adobe")); (B"Supplement", PInt 0)]);
   (B"FontDescriptor", PRef desc 0); (B"Subtype", PName (B"CIDFontType2")); (B"Type", PName (B"Font")); (B"W", PArr (w_items t ws))].
Theorem cid_obj_reads : forall t m family desc o, plain_name family -> cid_obj t m family desc = Ok o ->
  exists ws, Forall2 (fun g w => glyph_width t g = Ok w) (map snd m) ws /\
    reads o (PDict (cid_dict t family desc (combine (map snd m) ws))) [10].
Proof.
  intros t m family desc o H Ho. unfold cid_obj in Ho. apply bind_ok in Ho as (w & W & Ho). okeq Ho.
  destruct (w_array_reads _ _ _ W) as (ws & F & R). exists ws. split; [auto|]. rewrite subset_name_eq. pose proof (plus_reg _ H).
  apply (reads_dict []); [apply Forall_nil|]. apply entries_skip; [blanks|].
  apply (line_name (B"BaseFont")); [regw|auto|].
  match goal with |- reads_entries ?s _ _ =>
    match s with _ ++ _ ++ _ ++ _ ++ _ ++ _ ++ _ ++ _ ++ _ ++ _ ++ _ ++ _ ++ ?y =>
      apply (line_any (B"CIDSystemInfo") ([10] ++ B"<<" ++ [10] ++ B"  /Ordering (Identity)" ++ [10] ++ B"  /Registry (Adobe)" ++ [10] ++ B"  /Supplement 0" ++ [10] ++ B">>" ++ [10] ++ y) _ y) end end;
    [regw|reflexivity| |].
  { exists 10%nat. reflexivity. }
  apply (line_ref (B"FontDescriptor")); [regw|].
  apply (line_name (B"Subtype") (B"CIDFontType2")); [regw|regw|].
  apply (line_name (B"Type") (B"Font")); [regw|regw|].
  apply (line_any (B"W") (B" [" ++ w ++ B"]" ++ [10] ++ B">>" ++ [10]) _ (B">>" ++ [10])); [regw|reflexivity| |apply (entries_end []); apply Forall_nil].
  apply (reads_arr (B" ")); [blanks|]. apply R.
Qed.

(** ** The descriptor *)
Definition desc_dict (t : ttf) (family : bytes) (dict : Z) : list (bytes * pv) :=
  let du v := PInt (design_units v (unitsPerEm t)) in
  [(B"Type", PName (B"FontDescriptor")); (B"Ascent", du (ascent t)); (B"CapHeight", du (capHeight t)); (B"Descent", du (descent t));
   (B"Flags", PInt (flags t)); (B"FontBBox", PArr [du (xMin t); du (yMin t); du (xMax t); du (yMax t)]);
   (B"FontFile2", PRef dict 0); (B"FontName", PName (plus_name family)); (B"ItalicAngle", PInt (italicAngle t));
   (B"StemV", PInt 0); (B"XHeight", du (x_height t))].

Lemma four_ints : forall a b c e r,
  reads (B" [" ++ itoa a ++ B" " ++ itoa b ++ B" " ++ itoa c ++ B" " ++ itoa e ++ B"]" ++ r) (PArr [PInt a; PInt b; PInt c; PInt e]) r.
Proof.
  intros a b c e r. apply (reads_arr (B" ")); [blanks|].
  assert (St : forall w n s l, blank w -> stops s -> ref_tail s = None -> reads_items s l r -> reads_items (w ++ itoa n ++ s) (PInt n :: l) r).
  { intros w n s l Hw Hs Ht Hl. destruct (itoa_hd n) as (x & u & E & W & D). eapply items_step with (c := x).
    - rewrite skip_blank by auto. rewrite E. cbn [app]. apply skip_start; auto.
    - unfold is_digit in D. lia.
    - apply reads_int; auto.
    - exact Hl. }
  assert (Two : forall n p y, p <> [] -> ref_tail (B" " ++ itoa n ++ p ++ y) = None \/ True) by auto.
  assert (Nr : forall n m y, ref_tail (B" " ++ itoa n ++ B" " ++ itoa m ++ y) = None).
  { intros n m y. destruct (itoa_hd m) as (x & u & E & W & D). rewrite E. cbn [app].
    apply (ref_none2 (B" ") (itoa n) (B" ") x (u ++ y)); [blanks|apply itoa_reg|blanks|reflexivity|apply itoa_nn|auto|unfold is_digit in D; lia]. }
  apply (St []); [apply Forall_nil|reflexivity|apply Nr|].
  apply (St (B" ")); [blanks|reflexivity|apply Nr|].
  apply (St (B" ")); [blanks|reflexivity| |].
  { apply (ref_none2 (B" ") (itoa e) [] 93 r); [blanks|apply itoa_reg|apply Forall_nil|reflexivity|apply itoa_nn|reflexivity|discriminate]. }
  apply (St (B" ")); [blanks|reflexivity| |apply (items_end []); apply Forall_nil].
  apply (ref_none [] 93); [apply Forall_nil|reflexivity|reflexivity].
Qed.

Theorem desc_obj_reads : forall t family dict, plain_name family -> reads (desc_obj t family dict) (PDict (desc_dict t family dict)) [10].
Proof.
  intros t family dict H. unfold desc_obj. cbv zeta. rewrite subset_name_eq. pose proof (plus_reg _ H).
  apply (reads_dict []); [apply Forall_nil|]. apply entries_skip; [blanks|].
  apply (line_name (B"Type") (B"FontDescriptor")); [regw|regw|].
  apply (line_int (B"Ascent")); [regw|eexists; reflexivity|].
  apply (line_int (B"CapHeight")); [regw|eexists; reflexivity|].
  apply (line_int (B"Descent")); [regw|eexists; reflexivity|].
  apply (line_int (B"Flags")); [regw|eexists; reflexivity|].
  match goal with |- reads_entries (B"/FontBBox [" ++ itoa ?a ++ _ ++ itoa ?b ++ _ ++ itoa ?c ++ _ ++ itoa ?e ++ _ ++ _ ++ ?r) _ _ =>
    apply (line_any (B"FontBBox") (B" [" ++ itoa a ++ B" " ++ itoa b ++ B" " ++ itoa c ++ B" " ++ itoa e ++ B"]" ++ [10] ++ r) _ r) end; [regw|reflexivity|apply four_ints|].
  apply (line_ref (B"FontFile2")); [regw|].
  apply (line_name (B"FontName")); [regw|auto|].
  apply (line_int (B"ItalicAngle")); [regw|eexists; reflexivity|].
  apply (line_int (B"StemV") 0); [regw|eexists; reflexivity|].
  apply (last_int (B"XHeight")). regw.
Qed.

(** ** The font program *)
Theorem dict_obj_reads : forall compress t beyond m o, dict_obj compress t beyond m = Ok o ->
  exists f, make_font t beyond m = Ok f /\
    stream_object o [(B"Length", PInt (blen (compress f))); (B"Filter", PName (B"FlateDecode")); (B"Length1", PInt (blen f))] (compress f).
Proof.
  intros compress t beyond m o H. unfold dict_obj in H. apply bind_ok in H as (f & F & H). cbv zeta in H. okeq H.
  exists f. split; [auto|]. exists ([10] ++ B"stream" ++ [10] ++ compress f ++ [10] ++ B"endstream" ++ [10]), [10], [10], [10].
  split; [|split; [reflexivity|split; [auto|split; [auto|reflexivity]]]].
  apply (reads_dict []); [apply Forall_nil|].
  apply (line_int (B"Length")); [regw|eexists; reflexivity|].
  apply (line_name (B"Filter") (B"FlateDecode")); [regw|regw|].
  apply (last_int (B"Length1")). regw.
Qed.

(** ** ToUnicode *)
(** The hexadecimal strings written one after the other *)
Inductive hexes : bytes -> list bytes -> Prop :=
| hexes_nil : forall w, blank w -> hexes w []
| hexes_cons : forall s h r l, reads s (PHex h) r -> hexes r l -> hexes s (h :: l).
(** "n beginbfrange", n times first code, last code, destination (UTF-16BE),
    "endbfrange" (Adobe technical note 5014; ISO 32000-1, 9.10.3) *)
Definition code1 (h : bytes) : option Z :=
  match unhex h with Some b => match codes b with Some [c] => Some c | _ => None end | None => None end.
Fixpoint triples (l : list bytes) : option (list (Z * Z * Z)) :=
  match l with
  | [] => Some []
  | a :: b :: c :: t =>
    match code1 a, code1 b, code1 c, triples t with Some x, Some y, Some z, Some r => Some ((x, y, z) :: r) | _, _, _, _ => None end
  | _ => None
  end.
Definition bfranges (s : bytes) (n : Z) (l : list (Z * Z * Z)) : Prop :=
  exists a body z hs, s = a ++ [10] ++ itoa n ++ B" beginbfrange" ++ [10] ++ body ++ B"endbfrange" ++ z /\ hexes body hs /\ triples hs = Some l.

Definition code (x : Z) : Prop := 0 <= x < 65536.
Lemma fhex4_code : forall n, code n -> fhex4 n = hex4 n.
Proof. intros n H. unfold fhex4, code in *. destruct (Z.ltb_spec n 0); [lia|reflexivity]. Qed.
Lemma code1_hex4 : forall n, code n -> code1 (hex4 n) = Some n.
Proof.
  intros n H. unfold code1. rewrite <- (app_nil_r (hex4 n)), unhex_hex4 by auto. cbn [unhex codes]. f_equal. lia.
Qed.
Lemma reads_hex4 : forall w n r, blank w -> code n -> reads (w ++ B"<" ++ hex4 n ++ B">" ++ r) (PHex (hex4 n)) r.
Proof.
  intros w n r Hw H. exists 1%nat. cbn [value]. rewrite skip_blank by auto. pose proof (hex4_chars n H) as C.
  destruct (hex4 n) as [|c t] eqn:E; [rewrite hex4_form in E by auto; discriminate|].
  change (B"<" ++ (c :: t) ++ B">" ++ r) with (60 :: (c :: t) ++ 62 :: r). rewrite skip_start by reflexivity. cbn [Z.eqb Pos.eqb].
  inversion C as [|? ? Hc Ht]; subst. cbn [app]. destruct (Z.eqb_spec c 60) as [->|].
  - lia.
  - change (c :: t ++ 62 :: r) with ((c :: t) ++ 62 :: r). rewrite span_word; [reflexivity| |reflexivity].
    eapply Forall_impl; [|exact C]. cbn beta. intros. lia.
Qed.

Lemma first_rune : forall m g r, In (r, g) m -> In (rune_by_index m g, g) m.
Proof.
  intros m g r H. unfold rune_by_index. destruct (find (fun x => snd x =? g) m) as [[r' g']|] eqn:E.
  - apply find_some in E as [E1 E2]. cbn [snd] in E2. apply Z.eqb_eq in E2. subst. auto.
  - exfalso. apply find_none with (x := (r, g)) in E; auto. cbn [snd] in E. rewrite Z.eqb_refl in E. discriminate.
Qed.

Definition map_ok (m : charmap) : Prop := Forall (fun x => code (fst x) /\ code (snd x)) m.
Definition bf_line (m : charmap) (x : Z * Z) : bytes :=
  B"<" ++ fhex4 (snd x) ++ B"><" ++ fhex4 (snd x) ++ B"><" ++ fhex4 (rune_by_index m (snd x)) ++ B">" ++ [10].
Lemma bf_lines : forall m l, incl l m -> map_ok m -> forall w, blank w -> exists hs, hexes (w ++ flat_map (bf_line m) l) hs /\
  triples hs = Some (map (fun x => (snd x, snd x, rune_by_index m (snd x))) l).
Proof.
  intros m. induction l as [|[r g] l IH]; intros Hi Hm w Hw; cbn [flat_map].
  - rewrite app_nil_r. exists []. split; [constructor; auto|reflexivity].
  - pose proof (Hi _ (or_introl eq_refl)) as I. unfold map_ok in Hm. rewrite Forall_forall in Hm.
    pose proof (Hm _ I) as [_ G]. pose proof (Hm _ (first_rune _ _ _ I)) as [U _]. cbn [fst snd] in G, U.
    destruct (IH (fun x Hx => Hi x (or_intror Hx)) (proj2 (Forall_forall _ _) Hm) [10]) as (hs & H1 & H2); [blanks|].
    exists (hex4 g :: hex4 g :: hex4 (rune_by_index m g) :: hs). split.
    + unfold bf_line at 1. cbn [snd]. rewrite !fhex4_code by auto. rewrite <- !app_assoc.
      eapply hexes_cons; [apply (reads_hex4 w g (B"<" ++ hex4 g ++ B"><" ++ hex4 (rune_by_index m g) ++ B">" ++ [10] ++ flat_map (bf_line m) l)); auto|].
      eapply hexes_cons; [apply (reads_hex4 [] g (B"<" ++ hex4 (rune_by_index m g) ++ B">" ++ [10] ++ flat_map (bf_line m) l)); [apply Forall_nil|auto]|].
      eapply hexes_cons; [apply (reads_hex4 [] (rune_by_index m g) ([10] ++ flat_map (bf_line m) l)); [apply Forall_nil|auto]|]. exact H1.
    + cbn [triples map snd]. rewrite !code1_hex4, H2 by auto. reflexivity.
Qed.

Theorem unicode_reads : forall m, map_ok m -> exists s,
  stream_object (unicode_obj m) [(B"Length", PInt (blen s))] s /\
  bfranges s (Z.of_nat (List.length m)) (map (fun x => (snd x, snd x, rune_by_index m (snd x))) m).
Proof.
  intros m Hm. exists (unicode_content m). split.
  - unfold unicode_obj. eexists _, [10], [], [10]. split; [|split; [|split; [auto|split; [auto|]]]].
    + apply (reads_dict []); [apply Forall_nil|]. apply entries_skip; [blanks|]. apply (last_int (B"Length")). regw.
    + reflexivity.
    + reflexivity.
  - destruct (bf_lines m m (incl_refl _) Hm [] (Forall_nil _)) as (hs & H1 & H2).
    unfold bfranges, unicode_content. cbv zeta.
    set (low := fold_left _ m 65536). set (hi := fold_left _ m (-1)).
    exists (B"/CIDInit /ProcSet findresource begin" ++ [10] ++ B"12 dict begin" ++ [10] ++ B"begincmap" ++ [10]
  ++ B"/CIDSystemInfo << /Registry (Adobe)/Ordering (UCS)/Supplement 0>> def" ++ [10]
  ++ B"/CMapName /Adobe-Identity-UCS def /CMapType 2 def" ++ [10]
  ++ B"1 begincodespacerange" ++ [10] ++ B"<" ++ fhex4 low ++ B"><" ++ fhex4 hi ++ B">" ++ [10] ++ B"endcodespacerange").
    exists (flat_map (bf_line m) m). eexists. exists hs. split; [|split; [exact H1|exact H2]].
    clearbody low hi. rewrite <- !app_assoc. reflexivity.
Qed.

(** ** Reading a ToUnicode map of which only one reading is possible *)
Lemma hexes_unique : forall s l l', hexes s l -> hexes s l' -> l = l'.
Proof.
  assert (Bl : forall w h r, blank w -> ~ reads w (PHex h) r).
  { intros w h r Hw (f & E). destruct f as [|f]; [discriminate|]. cbn [value] in E. rewrite <- (app_nil_r w), skip_blank in E by auto. discriminate. }
  intros s l l' H. revert l'. induction H as [w Hw|s h r l Hr H IH]; intros l' H'; inversion H' as [w' Hw' E|s' h' r' l2 Hr' H2 E]; subst.
  - reflexivity.
  - exfalso. eapply Bl; eauto.
  - exfalso. eapply Bl; eauto.
  - destruct (reads_unique _ _ _ _ _ Hr Hr') as [E1 E2]. assert (h = h') by congruence. subst. f_equal. auto.
Qed.
Definition positions (p s : bytes) : list nat := filter (fun i => prefixb p (skipn i s)) (seq 0 (S (List.length s))).
Lemma positions_in : forall p a z, In (List.length a) (positions p (a ++ p ++ z)).
Proof.
  intros p a z. unfold positions. apply filter_In. split; [apply in_seq; rewrite app_length; lia|].
  rewrite skipn_app, skipn_all, Nat.sub_diag, skipn_O. cbn [app]. induction p as [|c p IH]; [reflexivity|]. cbn [app prefixb]. rewrite Z.eqb_refl. exact IH.
Qed.
Lemma only_at : forall p s n a z, positions p s = [n] -> s = a ++ p ++ z -> a = firstn n s /\ z = skipn (n + List.length p) s.
Proof.
  intros p s n a z H E. pose proof (positions_in p a z) as I. rewrite <- E, H in I. destruct I as [I|[]]. subst n s.
  split; [rewrite firstn_app, firstn_all, Nat.sub_diag, firstn_O, app_nil_r; auto|].
  rewrite app_assoc. rewrite <- (app_length a p). rewrite skipn_app, skipn_all, Nat.sub_diag, skipn_O. reflexivity.
Qed.
