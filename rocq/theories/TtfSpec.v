(** What a TrueType file means, after the OpenType specification (font file,
    cmap, head, hhea, hmtx, loca, glyf, maxp); no reference to how pdft reads. *)
From Coq Require Import String List ZArith Lia Bool.
From Verif Require Import Base.
Open Scope Z_scope.
Open Scope list_scope.

(** ** Numbers in a file *)
Definition u8 (d : bytes) (p : Z) : option Z := if p <? 0 then None else nth_error d (Z.to_nat p).
Definition u16 (d : bytes) (p : Z) : option Z :=
  match u8 d p, u8 d (p + 1) with Some a, Some b => Some (256 * a + b) | _, _ => None end.
Definition s16 (d : bytes) (p : Z) : option Z :=
  match u16 d p with Some u => Some (if 32768 <=? u then u - 65536 else u) | None => None end.
Definition u32 (d : bytes) (p : Z) : option Z :=
  match u16 d p, u16 d (p + 2) with Some a, Some b => Some (65536 * a + b) | _, _ => None end.
Definition bytes_at (d : bytes) (p n : Z) : option bytes :=
  if (0 <=? p) && (0 <=? n) && (p + n <=? blen d) then Some (firstn (Z.to_nat n) (skipn (Z.to_nat p) d)) else None.

(** ** Table directory: entry [i] is at 12 + 16 i *)
Definition dir_tag (d : bytes) (i : Z) : option bytes := bytes_at d (12 + 16 * i) 4.
Definition dir_sum (d : bytes) (i : Z) : option Z := u32 d (12 + 16 * i + 4).
Definition dir_off (d : bytes) (i : Z) : option Z := u32 d (12 + 16 * i + 8).
Definition dir_len (d : bytes) (i : Z) : option Z := u32 d (12 + 16 * i + 12).

(** The font has exactly one table [tag], it is at [off] and [len] long. *)
Definition has_table (d : bytes) (tag : bytes) (off len : Z) : Prop :=
  exists n i, u16 d 4 = Some n /\ 0 <= i < n /\ dir_tag d i = Some tag /\ dir_off d i = Some off /\ dir_len d i = Some len /\
    forall j, 0 <= j < n -> dir_tag d j = Some tag -> j = i.

(** ** cmap *)
(** The subtable for a platform and encoding. *)
Definition enc_record (d : bytes) (cmap : Z) (i : Z) : option (Z * Z * Z) :=
  match u16 d (cmap + 4 + 8 * i), u16 d (cmap + 4 + 8 * i + 2), u32 d (cmap + 4 + 8 * i + 4) with
  | Some p, Some e, Some o => Some (p, e, o)
  | _, _, _ => None
  end.
Definition cmap_subtable (d : bytes) (cmap plat enc off : Z) : Prop :=
  exists n i, u16 d (cmap + 2) = Some n /\ 0 <= i < n /\ enc_record d cmap i = Some (plat, enc, off) /\
    forall j o, 0 <= j < n -> enc_record d cmap j = Some (plat, enc, o) -> j = i.

(** Format 4 at [s]: [segX2] is at s+6; the arrays endCode, startCode, idDelta and
    idRangeOffset follow, with a reserved word after endCode. *)
Definition end_code (d : bytes) (s i : Z) : option Z := u16 d (s + 14 + 2 * i).
Definition start_code (d : bytes) (s n i : Z) : option Z := u16 d (s + 16 + 2 * n + 2 * i).
Definition id_delta (d : bytes) (s n i : Z) : option Z := u16 d (s + 16 + 4 * n + 2 * i).
Definition range_pos (s n i : Z) : Z := s + 16 + 6 * n + 2 * i.
Definition id_range (d : bytes) (s n i : Z) : option Z := u16 d (range_pos s n i).

(** The segment of [c]: the first whose end code is at least [c]. *)
Definition segment (d : bytes) (s n c i : Z) : Prop :=
  0 <= i < n /\ (exists e, end_code d s i = Some e /\ c <= e) /\
  forall j e, 0 <= j < i -> end_code d s j = Some e -> e < c.

Definition glyph_of4 (d : bytes) (s c g : Z) : Prop :=
  exists sx n i st de ro, u16 d (s + 6) = Some sx /\ n = sx / 2 /\ segment d s n c i /\
    start_code d s n i = Some st /\ id_delta d s n i = Some de /\ id_range d s n i = Some ro /\
    if c <? st then g = 0
    else if ro =? 0 then g = (c + de) mod 65536
    else exists x, u16 d (range_pos s n i + ro + 2 * (c - st)) = Some x /\
         g = if x =? 0 then 0 else (x + de) mod 65536.

(** Format 12 at [s]: groups at s+16, each start, end (inclusive), first glyph. *)
Definition glyph_of12 (d : bytes) (s c g : Z) : Prop :=
  exists n i st en g0, u32 d (s + 12) = Some n /\ 0 <= i < n /\
    u32 d (s + 16 + 12 * i) = Some st /\ u32 d (s + 16 + 12 * i + 4) = Some en /\ u32 d (s + 16 + 12 * i + 8) = Some g0 /\
    st <= c <= en /\ g = g0 + (c - st).

(** ** Metrics *)
Definition units_per_em (d : bytes) (u : Z) : Prop := exists h hl, has_table d (B"head") h hl /\ u16 d (h + 18) = Some u.
Definition num_glyphs (d : bytes) (n : Z) : Prop := exists m ml, has_table d (B"maxp") m ml /\ u16 d (m + 4) = Some n.
(** Glyphs behind the last metric have its width. *)
Definition advance (d : bytes) (g w : Z) : Prop :=
  exists h hl x xl n, has_table d (B"hhea") h hl /\ has_table d (B"hmtx") x xl /\ u16 d (h + 34) = Some n /\ 0 < n /\
    u16 d (x + 4 * Z.min g (n - 1)) = Some w.

(** ** Outlines *)
Definition loca_entry (d : bytes) (fmt loca g : Z) : option Z :=
  if fmt =? 0 then match u16 d (loca + 2 * g) with Some x => Some (2 * x) | None => None end else u32 d (loca + 4 * g).
Definition outline (d : bytes) (g : Z) (b : bytes) : Prop :=
  exists h hl x xl l ll fmt a z, has_table d (B"head") h hl /\ has_table d (B"glyf") x xl /\ has_table d (B"loca") l ll /\
    s16 d (h + 50) = Some fmt /\ 0 <= g /\ (g + 2) * (if fmt =? 0 then 2 else 4) <= ll /\
    loca_entry d fmt l g = Some a /\ loca_entry d fmt l (g + 1) = Some z /\
    bytes_at d (x + a) (z - a) = Some b.

(** A composite outline (its contour count is negative) lists components from
    byte 10 on: flags, glyph, arguments and a transformation; the flags tell the
    sizes and whether another one follows. *)
Definition arg_size (fl : Z) : Z :=
  (if Z.testbit fl 0 then 4 else 2)
  + (if Z.testbit fl 3 then 2 else if Z.testbit fl 6 then 4 else if Z.testbit fl 7 then 8 else 0).
Inductive component_at (o : bytes) : Z -> Z -> Prop :=
| comp_here : forall p fl g, u16 o p = Some fl -> u16 o (p + 2) = Some g -> component_at o p g
| comp_next : forall p fl g, u16 o p = Some fl -> Z.testbit fl 5 = true -> component_at o (p + 4 + arg_size fl) g -> component_at o p g.
Definition component (o : bytes) (g : Z) : Prop := exists n, s16 o 0 = Some n /\ n < 0 /\ component_at o 10 g.

(** ** Checksum of a table: the sum of its big-endian words *)
Fixpoint words (d : bytes) : Z :=
  match d with
  | a :: b :: c :: e :: r => 16777216 * a + 65536 * b + 256 * c + e + words r
  | _ => 0
  end.

(** The glyph id of [c] lies in the glyph id array of the subtable, at an even
    distance. *)
Definition in_array4 (d : bytes) (s c : Z) : Prop :=
  forall sx n i st ro len, u16 d (s + 6) = Some sx -> n = sx / 2 -> segment d s n c i ->
    start_code d s n i = Some st -> id_range d s n i = Some ro -> u16 d (s + 2) = Some len -> st <= c -> ro <> 0 ->
    ro mod 2 = 0 /\ s + 16 + 8 * n <= range_pos s n i + ro + 2 * (c - st) /\ range_pos s n i + ro + 2 * (c - st) + 2 <= s + len.

(** The components of a composite outline from position [p] on, to the last; the
    scale flags exclude each other. *)
Inductive comps (o : bytes) : Z -> list Z -> Prop :=
| comps_last : forall p fl g, u16 o p = Some fl -> u16 o (p + 2) = Some g -> Z.testbit fl 5 = false -> comps o p [g]
| comps_more : forall p fl g l, u16 o p = Some fl -> u16 o (p + 2) = Some g -> Z.testbit fl 5 = true ->
    (Z.testbit fl 7 = true -> Z.testbit fl 3 = false /\ Z.testbit fl 6 = false) ->
    comps o (p + 4 + arg_size fl) l -> comps o p (g :: l).
(** An outline is empty, simple, or a complete list of components. *)
Definition well_formed (o : bytes) : Prop :=
  o = [] \/ exists n, s16 o 0 = Some n /\ (0 <= n \/ exists l, comps o 10 l).

Definition drawable (d : bytes) (g : Z) : Prop := exists o, outline d g o /\ well_formed o.

(** The bytes of a table *)
Definition table (d tag b : bytes) : Prop := exists off len, has_table d tag off len /\ bytes_at d off len = Some b.
Definition copied_tags : list bytes := [B"cvt "; B"fpgm"; B"head"; B"hhea"; B"hmtx"; B"maxp"; B"prep"].

(** The checksum the directory gives for a table *)
Definition table_sum (d tag : bytes) (cs : Z) : Prop :=
  exists n i, u16 d 4 = Some n /\ 0 <= i < n /\ dir_tag d i = Some tag /\ dir_sum d i = Some cs.
(** Tables are padded to a multiple of four bytes. *)
Definition pad4 (n : Z) : Z := (n + 3) / 4 * 4.
(** The tables hhea and hmtx hold all the metrics they announce. *)
Definition metrics_inside (d : bytes) : Prop :=
  exists hb xb n, table d (B"hhea") hb /\ table d (B"hmtx") xb /\ 36 <= blen hb /\ u16 hb 34 = Some n /\ 0 < n /\ 4 * n <= blen xb.
