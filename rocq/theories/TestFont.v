(** A small font for the concrete cases: five glyphs, a format 4 and a format 12
    character map, a composite glyph of a composite glyph. *)
From Coq Require Import String List ZArith Lia Bool.
From Verif Require Import Base BaseProofs CryptoSpec Ttf TtfSpec TtfProofs.
Open Scope Z_scope.
Open Scope list_scope.

Definition w2 (v : Z) : bytes := [v / 256; v mod 256].
Definition w4 (v : Z) : bytes := w2 (v / 65536) ++ w2 (v mod 65536).
Definition zs (n : nat) : bytes := repeat 0 n.
Definition pad (b : bytes) : bytes := b ++ repeat 0 ((4 - List.length b mod 4) mod 4)%nat.

Fixpoint directory_of (l : list (bytes * bytes)) (pos : Z) : bytes :=
  match l with [] => [] | (tag, b) :: r => tag ++ w4 0 ++ w4 pos ++ w4 (blen b) ++ directory_of r (pos + blen (pad b)) end.
(** The last table is not padded. *)
Fixpoint contents_of (l : list (bytes * bytes)) : bytes :=
  match l with [] => [] | [(_, b)] => b | (_, b) :: r => pad b ++ contents_of r end.
Definition font_file (l : list (bytes * bytes)) : bytes :=
  [0; 1; 0; 0] ++ w2 (Z.of_nat (List.length l)) ++ zs 6 ++ directory_of l (12 + 16 * Z.of_nat (List.length l)) ++ contents_of l.

Definition t_head (upem : Z) : bytes := zs 12 ++ [95; 15; 60; 245] ++ zs 2 ++ w2 upem ++ zs 16 ++ w2 0 ++ w2 65500 ++ w2 500 ++ w2 700 ++ zs 6 ++ w2 0 ++ zs 2.
Definition t_hhea (n : Z) : bytes := zs 4 ++ w2 800 ++ w2 65336 ++ zs 26 ++ w2 n.
Definition t_maxp (n : Z) : bytes := [0; 1; 0; 0] ++ w2 n.
Definition t_hmtx : bytes := flat_map (fun w => w2 w ++ w2 0) [500; 600; 700; 800; 900].
Definition t_name : bytes := w2 0 ++ w2 1 ++ w2 18 ++ zs 6 ++ w2 6 ++ w2 1 ++ w2 0 ++ B"T".
Definition t_os2 : bytes := zs 78.
Definition t_post : bytes := zs 32.
(** 65, 66 -> 1, 2; 67, 68 -> 4, 0 by the glyph id array; 65535 -> 0 *)
Definition sub4 : bytes :=
  w2 4 ++ w2 44 ++ w2 0 ++ w2 6 ++ zs 6 ++ flat_map w2 [66; 68; 65535] ++ w2 0 ++ flat_map w2 [65; 67; 65535]
  ++ flat_map w2 [65472; 0; 1] ++ flat_map w2 [0; 4; 0] ++ flat_map w2 [4; 0].
(** 128512 to 128513 -> 1, 2 *)
Definition sub12 : bytes := w2 12 ++ w2 0 ++ w4 28 ++ w4 0 ++ w4 1 ++ w4 128512 ++ w4 128513 ++ w4 1.
Definition t_cmap : bytes := w2 0 ++ w2 2 ++ (w2 3 ++ w2 1 ++ w4 20) ++ (w2 3 ++ w2 10 ++ w4 64) ++ sub4 ++ sub12.
Definition part (g : Z) : bytes := [255; 255] ++ zs 8 ++ w2 0 ++ w2 g ++ w2 0.
Definition shapes : list bytes := [[0; 0; 9; 9]; [0; 0; 1; 1]; part 3; part 4; [0; 0; 4; 4]].
Fixpoint offs (l : list bytes) (p : Z) : list Z := match l with [] => [p] | b :: r => p :: offs r (p + blen b) end.
Definition t_loca : bytes := flat_map (fun v => w2 (v / 2)) (offs shapes 0).
Definition t_glyf : bytes := List.concat shapes.

Definition tables_of (upem metrics : Z) : list (bytes * bytes) :=
  [(B"OS/2", t_os2); (B"cmap", t_cmap); (B"glyf", t_glyf); (B"head", t_head upem); (B"hhea", t_hhea metrics); (B"hmtx", t_hmtx);
   (B"loca", t_loca); (B"name", t_name); (B"post", t_post); (B"maxp", t_maxp 5)].
Definition test_font : bytes := Eval vm_compute in font_file (tables_of 2000 5).
(** as above with one byte changed *)
Definition no_metrics : bytes := Eval vm_compute in font_file (tables_of 2000 0).
Definition no_em : bytes := Eval vm_compute in font_file (tables_of 0 5).

Definition the (x : res ttf) : ttf :=
  match x with Ok t => t | _ => mkTtf [] 0 0 0 0 0 0 0 0 0 0 [] 0 [] [] [] [] [] false [] 0 0 0 0 0 0 0 0 0 0 false [] [] end.
Definition test_ttf : ttf := Eval vm_compute in the (parseTtf test_font).
Lemma test_parses : parseTtf test_font = Ok test_ttf. Proof. vm_compute. reflexivity. Qed.

(** ** Deciding what the specification says about a concrete file *)
Definition upto (n : Z) : list Z := map Z.of_nat (seq 0 (Z.to_nat n)).
Lemma in_upto : forall n j, 0 <= j < n -> In j (upto n).
Proof. intros n j H. unfold upto. apply in_map_iff. exists (Z.to_nat j). split; [lia|]. apply in_seq. lia. Qed.
Lemma upto_range : forall n j, In j (upto n) -> 0 <= j < n.
Proof. intros n j H. unfold upto in H. apply in_map_iff in H as (k & <- & H). apply in_seq in H. lia. Qed.
Definition obeq (a : option bytes) (b : bytes) : bool := match a with Some x => beqb x b | None => false end.
Definition locate (d tag : bytes) : option (Z * Z) :=
  match u16 d 4 with
  | Some n => match filter (fun i => obeq (dir_tag d i) tag) (upto n) with
              | [i] => match dir_off d i, dir_len d i with Some o, Some l => Some (o, l) | _, _ => None end
              | _ => None
              end
  | None => None
  end.
Lemma locate_ok : forall d tag o l, locate d tag = Some (o, l) -> has_table d tag o l.
Proof.
  intros d tag o l H. unfold locate in H. destruct (u16 d 4) as [n|] eqn:N; [|discriminate].
  destruct (filter _ (upto n)) as [|i [|? ?]] eqn:F; try discriminate.
  assert (I : In i (filter (fun i => obeq (dir_tag d i) tag) (upto n))) by (rewrite F; left; auto).
  apply filter_In in I as [I1 I2]. unfold obeq in I2. destruct (dir_tag d i) as [x|] eqn:E; [|discriminate]. destruct (beqb_spec x tag); [subst x|discriminate].
  destruct (dir_off d i) as [o'|] eqn:Eo; [|discriminate]. destruct (dir_len d i) as [l'|] eqn:El; [|discriminate].
  exists n, i. split; [auto|]. split; [apply upto_range; auto|]. split; [auto|]. split; [congruence|]. split; [congruence|].
  intros j Hj Ej. assert (J : In j (filter (fun i => obeq (dir_tag d i) tag) (upto n))).
  { apply filter_In. split; [apply in_upto; auto|]. rewrite Ej. unfold obeq. destruct (beqb_spec tag tag); congruence. }
  rewrite F in J. destruct J as [J|[]]. auto.
Qed.

Definition shape_of (d : bytes) (g : Z) : option bytes :=
  match locate d (B"head"), locate d (B"glyf"), locate d (B"loca") with
  | Some (h, _), Some (x, _), Some (l, ll) =>
    match s16 d (h + 50) with
    | Some fmt => if (0 <=? g) && ((g + 2) * (if fmt =? 0 then 2 else 4) <=? ll) then
                    match loca_entry d fmt l g, loca_entry d fmt l (g + 1) with
                    | Some a, Some z => bytes_at d (x + a) (z - a)
                    | _, _ => None
                    end
                  else None
    | None => None
    end
  | _, _, _ => None
  end.
Lemma shape_ok : forall d g b, shape_of d g = Some b -> outline d g b.
Proof.
  intros d g b H. unfold shape_of in H.
  destruct (locate d (B"head")) as [[h hl]|] eqn:E1; [|discriminate]. destruct (locate d (B"glyf")) as [[x xl]|] eqn:E2; [|discriminate].
  destruct (locate d (B"loca")) as [[l ll]|] eqn:E3; [|discriminate]. destruct (s16 d (h + 50)) as [fmt|] eqn:E4; [|discriminate].
  destruct (Z.leb_spec 0 g); cbn [andb] in H; [|discriminate].
  destruct (Z.leb_spec ((g + 2) * (if fmt =? 0 then 2 else 4)) ll); [|discriminate].
  destruct (loca_entry d fmt l g) as [a|] eqn:E5; [|discriminate]. destruct (loca_entry d fmt l (g + 1)) as [z|] eqn:E6; [|discriminate].
  exists h, hl, x, xl, l, ll, fmt, a, z. repeat (split; [first [apply locate_ok; assumption|assumption]|]). assumption.
Qed.

Definition locate_sub (d : bytes) (cmap p e : Z) : option Z :=
  match u16 d (cmap + 2) with
  | Some n => match filter (fun i => match enc_record d cmap i with Some (p', e', _) => (p' =? p) && (e' =? e) | None => false end) (upto n) with
              | [i] => match enc_record d cmap i with Some (_, _, o) => Some o | None => None end
              | _ => None
              end
  | None => None
  end.
Lemma locate_sub_ok : forall d cmap p e o, locate_sub d cmap p e = Some o -> cmap_subtable d cmap p e o.
Proof.
  intros d cmap p e o H. unfold locate_sub in H. destruct (u16 d (cmap + 2)) as [n|] eqn:N; [|discriminate].
  set (q := fun i => match enc_record d cmap i with Some (p', e', _) => (p' =? p) && (e' =? e) | None => false end) in *.
  destruct (filter q (upto n)) as [|i [|? ?]] eqn:F; try discriminate.
  assert (I : In i (filter q (upto n))) by (rewrite F; left; auto). apply filter_In in I as [I1 I2]. unfold q in I2.
  destruct (enc_record d cmap i) as [[[p' e'] o']|] eqn:E; [|discriminate]. apply andb_true_iff in I2 as [I2 I3]. apply Z.eqb_eq in I2, I3. subst p' e'.
  exists n, i. split; [auto|]. split; [apply upto_range; auto|]. split; [congruence|].
  intros j o2 Hj Ej. assert (J : In j (filter q (upto n))).
  { apply filter_In. split; [apply in_upto; auto|]. unfold q. rewrite Ej, !Z.eqb_refl. reflexivity. }
  rewrite F in J. destruct J as [J|[]]. auto.
Qed.
Lemma small_bytes : forall d, forallb (fun c => (0 <=? c) && (c <? 256)) d = true -> Forall bytep d.
Proof. intros d H. rewrite forallb_forall in H. apply Forall_forall. intros x Hx. apply H in Hx. unfold bytep. lia. Qed.
Lemma test_bytes : Forall bytep test_font. Proof. apply small_bytes. vm_compute. reflexivity. Qed.
Lemma test_cmap : has_table test_font (B"cmap") 252 92 /\ cmap_subtable test_font 252 3 1 20 /\ cmap_subtable test_font 252 3 10 64.
Proof. split; [apply locate_ok|split; apply locate_sub_ok]; vm_compute; reflexivity. Qed.
