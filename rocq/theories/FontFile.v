(** The embedded font program: what is written where. *)
From Coq Require Import String List ZArith Lia Bool.
From Verif Require Import Base BaseProofs Ttf TtfSpec TtfProofs Subset.
Open Scope Z_scope.
Open Scope list_scope.

(** ** The buffer *)
Lemma blen_repeat : forall (a : Z) n, blen (repeat a n) = Z.of_nat n.
Proof. intros. unfold blen. rewrite repeat_length. reflexivity. Qed.

(** A write in the middle replaces exactly the bytes there. *)
Lemma bwrite_mid : forall x y z p, blen y = blen p ->
  bwrite (mkBuff (blen x) (x ++ y ++ z)) p = mkBuff (blen x + blen p) (x ++ p ++ z).
Proof.
  intros x y z p E. unfold bwrite. cbn [bpos bdat].
  replace (Z.to_nat (blen x + blen p - blen (x ++ y ++ z))) with 0%nat by (rewrite !blen_app; pose proof (blen_nonneg z); lia).
  cbn [repeat]. rewrite app_nil_r. f_equal.
  rewrite firstn_app. replace (Z.to_nat (blen x)) with (List.length x) by (unfold blen; lia).
  rewrite firstn_all, Nat.sub_diag, firstn_O, app_nil_r. f_equal. f_equal.
  rewrite skipn_app, skipn_all2 by (unfold blen in *; lia). cbn [app].
  rewrite skipn_app, skipn_all2 by (unfold blen in *; lia). cbn [app].
  replace (_ - _ - _)%nat with 0%nat by (unfold blen in *; lia). apply skipn_O.
Qed.

(** A write at or behind the end fills up with zeros. *)
Lemma bwrite_end : forall pos x p, blen x <= pos ->
  bwrite (mkBuff pos x) p = mkBuff (pos + blen p) (x ++ repeat 0 (Z.to_nat (pos - blen x)) ++ p).
Proof.
  intros pos x p H. unfold bwrite. cbn [bpos bdat]. f_equal. pose proof (blen_nonneg p). pose proof (blen_nonneg x).
  rewrite (skipn_all2 (n := Z.to_nat (pos + blen p))).
  2:{ rewrite app_length, repeat_length. unfold blen in *. lia. }
  rewrite app_nil_r, firstn_app.
  replace (firstn (Z.to_nat pos) x) with x by (symmetry; apply firstn_all2; unfold blen in *; lia).
  rewrite <- app_assoc. f_equal. f_equal.
  replace (Z.to_nat (pos + blen p - blen x)) with (Z.to_nat (pos - blen x) + Z.to_nat (blen p))%nat by lia.
  rewrite repeat_app, firstn_app, repeat_length.
  replace (Z.to_nat pos - List.length x)%nat with (Z.to_nat (pos - blen x)) by (unfold blen in *; lia).
  rewrite Nat.sub_diag, firstn_O, app_nil_r. apply firstn_all2. rewrite repeat_length. lia.
Qed.

(** A write that goes over the end *)
Lemma bwrite_over : forall x y p, blen y <= blen p ->
  bwrite (mkBuff (blen x) (x ++ y)) p = mkBuff (blen x + blen p) (x ++ p).
Proof.
  intros x y p H. unfold bwrite. cbn [bpos bdat]. f_equal. pose proof (blen_nonneg y).
  rewrite (skipn_all2 (n := Z.to_nat (blen x + blen p))).
  2:{ rewrite !app_length, repeat_length. unfold blen in *. rewrite app_length. lia. }
  rewrite app_nil_r. f_equal. rewrite <- app_assoc, firstn_app.
  replace (Z.to_nat (blen x)) with (List.length x) by (unfold blen; lia).
  rewrite firstn_all, Nat.sub_diag, firstn_O, app_nil_r. reflexivity.
Qed.

Lemma be2_len : forall v, blen (be2 v) = 2. Proof. reflexivity. Qed.
Lemma be4_len : forall v, blen (be4 v) = 4. Proof. reflexivity. Qed.

(** ** Reading inside a longer file *)
Lemma u8_app : forall x d y p, 0 <= p < blen d -> u8 (x ++ d ++ y) (blen x + p) = u8 d p.
Proof.
  intros x d y p H. unfold u8. pose proof (blen_nonneg x).
  destruct (Z.ltb_spec (blen x + p) 0); [lia|]. destruct (Z.ltb_spec p 0); [lia|].
  rewrite nth_error_app2 by (unfold blen in *; lia). rewrite nth_error_app1 by (unfold blen in *; lia).
  f_equal. unfold blen in *. lia.
Qed.
Lemma u16_app : forall x d y p, 0 <= p -> p + 2 <= blen d -> u16 (x ++ d ++ y) (blen x + p) = u16 d p.
Proof. intros. unfold u16. rewrite <- Z.add_assoc, !u8_app by lia. reflexivity. Qed.
Lemma u32_app : forall x d y p, 0 <= p -> p + 4 <= blen d -> u32 (x ++ d ++ y) (blen x + p) = u32 d p.
Proof. intros. unfold u32. rewrite <- Z.add_assoc, !u16_app by lia. reflexivity. Qed.
Lemma s16_app : forall x d y p, 0 <= p -> p + 2 <= blen d -> s16 (x ++ d ++ y) (blen x + p) = s16 d p.
Proof. intros. unfold s16. rewrite u16_app by lia. reflexivity. Qed.
Lemma bytes_at_app : forall x d y p n, 0 <= p -> 0 <= n -> p + n <= blen d ->
  bytes_at (x ++ d ++ y) (blen x + p) n = bytes_at d p n.
Proof.
  intros x d y p n H1 H2 H3. unfold bytes_at. rewrite !blen_app. pose proof (blen_nonneg x). pose proof (blen_nonneg y).
  destruct (Z.leb_spec 0 (blen x + p)); [|lia]. destruct (Z.leb_spec 0 p); [|lia]. destruct (Z.leb_spec 0 n); [|lia].
  destruct (Z.leb_spec (blen x + p + n) (blen x + (blen d + blen y))); [|lia]. destruct (Z.leb_spec (p + n) (blen d)); [|lia].
  cbn [andb]. f_equal. rewrite skipn_app, skipn_all2 by (unfold blen in *; lia). cbn [app].
  replace (Z.to_nat (blen x + p) - List.length x)%nat with (Z.to_nat p) by (unfold blen in *; lia).
  rewrite skipn_app, firstn_app.
  replace (Z.to_nat n - List.length (skipn (Z.to_nat p) d))%nat with 0%nat by (rewrite skipn_length; unfold blen in *; lia).
  rewrite firstn_O, app_nil_r. reflexivity.
Qed.
Lemma bytes_at_all : forall d, bytes_at d 0 (blen d) = Some d.
Proof.
  intros. unfold bytes_at. pose proof (blen_nonneg d). destruct (Z.leb_spec 0 (blen d)); [|lia].
  rewrite Z.leb_refl. cbn [andb Z.leb Z.compare]. rewrite Z.add_0_l, Z.leb_refl. rewrite skipn_O, firstn_all2; auto. unfold blen. lia.
Qed.

Lemma be2_u16 : forall v, 0 <= v < 65536 -> u16 (be2 v) 0 = Some v.
Proof.
  intros v H. change (u16 (be2 v) 0) with (Some (256 * ((v / 256) mod 256) + v mod 256)). f_equal.
  rewrite (Z.mod_small (v / 256)) by (split; [apply Z.div_pos|apply Z.div_lt_upper_bound]; lia).
  pose proof (Z.div_mod v 256). lia.
Qed.
Lemma be4_u32 : forall v, 0 <= v < 4294967296 -> u32 (be4 v) 0 = Some v.
Proof.
  intros v H.
  change (u32 (be4 v) 0) with (Some (65536 * (256 * ((v / 16777216) mod 256) + (v / 65536) mod 256) + (256 * ((v / 256) mod 256) + v mod 256))).
  f_equal.
  rewrite (Z.mod_small (v / 16777216)) by (split; [apply Z.div_pos|apply Z.div_lt_upper_bound]; lia).
  change (v / 16777216) with (v / (256 * 256 * 256)). change (v / 65536) with (v / (256 * 256)).
  rewrite <- !Z.div_div by lia.
  pose proof (Z.div_mod v 256). pose proof (Z.div_mod (v / 256) 256). pose proof (Z.div_mod (v / 256 / 256) 256). lia.
Qed.

(** ** The whole file *)
(** One directory entry *)
Definition dir_entry (x : bytes * bytes * Z * Z) (pos : Z) : bytes :=
  let '(tag, data, cs, len) := x in tag ++ be4 cs ++ be4 pos ++ be4 len.
Definition data_of (x : bytes * bytes * Z * Z) : bytes := let '(_, data, _, _) := x in data.
Fixpoint dirs (l : list (bytes * bytes * Z * Z)) (pos : Z) : bytes :=
  match l with [] => [] | x :: r => dir_entry x pos ++ dirs r (pos + blen (data_of x)) end.
Definition datas (l : list (bytes * bytes * Z * Z)) : bytes := flat_map data_of l.

Lemma dirs_app : forall l1 l2 pos, dirs (l1 ++ l2) pos = dirs l1 pos ++ dirs l2 (pos + blen (datas l1)).
Proof.
  induction l1 as [|x l1 IH]; intros l2 pos; cbn [app dirs datas flat_map].
  - unfold blen. cbn [List.length]. rewrite Z.add_0_r. reflexivity.
  - rewrite IH, app_assoc, blen_app. do 2 f_equal. unfold datas. lia.
Qed.
Lemma datas_app : forall l1 l2, datas (l1 ++ l2) = datas l1 ++ datas l2.
Proof. intros. apply flat_map_app. Qed.
Lemma dir_entry_len : forall x pos, blen (fst (fst (fst x))) = 4 -> blen (dir_entry x pos) = 16.
Proof. intros [[[tag data] cs] len] pos H. unfold dir_entry. cbn [fst] in H. rewrite !blen_app, !be4_len. lia. Qed.
Definition tag4 (x : bytes * bytes * Z * Z) : Prop := blen (fst (fst (fst x))) = 4.
Lemma dirs_len : forall l pos, Forall tag4 l -> blen (dirs l pos) = 16 * Z.of_nat (List.length l).
Proof.
  induction l as [|x l IH]; intros pos H; [reflexivity|]. inversion H; subst. cbn [dirs List.length].
  rewrite blen_app, dir_entry_len, IH by auto. lia.
Qed.

(** What the tables are *)
Definition made (t : ttf) (beyond glyf : bytes) (loca : list Z) (x : bytes * bytes * Z * Z) : Prop :=
  let '(tag, data, cs, len) := x in font_table t beyond glyf loca tag = Ok (data, cs, len).

(** The loop appends one entry and one table per tag; [hdr] are the 12 bytes
    in front. *)
Lemma font_loop_ok : forall t beyond glyf loca hdr ts done b pos total,
  blen hdr = 12 -> Forall (fun tag => blen tag = 4) ts -> Forall tag4 done ->
  total = 12 + 16 * (Z.of_nat (List.length done) + Z.of_nat (List.length ts)) ->
  pos = total + blen (datas done) ->
  (done = [] /\ bdat b = hdr /\ ts <> [] \/
   bdat b = hdr ++ dirs done total ++ repeat 0 (Z.to_nat (16 * Z.of_nat (List.length ts))) ++ datas done) ->
  forall b', font_loop t beyond glyf loca ts (Z.of_nat (List.length done)) pos b = Ok b' ->
  exists l, map (fun x => fst (fst (fst x))) l = ts /\ Forall (made t beyond glyf loca) l /\
    bdat b' = hdr ++ dirs (done ++ l) total ++ datas (done ++ l).
Proof.
  intros t beyond glyf loca hdr. induction ts as [|tag ts IH]; intros done b pos total Hh Ht Hd Htot Hpos Hb b' H.
  { cbn [font_loop] in H. injection H as <-. destruct Hb as [(_ & _ & N)|Hb]; [congruence|].
    exists []. split; [auto|]. split; [auto|]. rewrite app_nil_r, Hb. cbn [List.length Z.of_nat Z.mul Z.to_nat repeat app]. reflexivity. }
  inversion Ht as [|? ? Htag Hts]; subst. set (total := 12 + 16 * (Z.of_nat (List.length done) + Z.of_nat (List.length (tag :: ts)))) in *.
  cbn [font_loop] in H. apply bind_ok in H as ([[data cs] len] & E & H). cbv zeta in H.
  set (x := (tag, data, cs, len)).
  assert (W : bwrite (bseek b (total + blen (datas done))) data
     = mkBuff (total + blen (datas done) + blen data)
         (hdr ++ dirs done total ++ repeat 0 (Z.to_nat (16 * Z.of_nat (List.length (tag :: ts)))) ++ datas done ++ data)).
  { unfold bseek. destruct Hb as [(-> & Hb & _)|Hb]; rewrite Hb.
    - cbn [datas flat_map dirs app]. rewrite bwrite_end.
      2:{ unfold total. cbn [List.length]. change (blen (@nil Z)) with 0. lia. }
      f_equal. f_equal. f_equal. f_equal. unfold total. cbn [List.length]. change (blen (@nil Z)) with 0. lia.
    - assert (L : blen (hdr ++ dirs done total ++ repeat 0 (Z.to_nat (16 * Z.of_nat (List.length (tag :: ts)))) ++ datas done) = total + blen (datas done)).
      { rewrite !blen_app, blen_repeat, dirs_len by auto. unfold total. lia. }
      rewrite bwrite_end by lia. rewrite L, Z.sub_diag. cbn [Z.to_nat repeat app]. rewrite <- !app_assoc. reflexivity. }
  rewrite W in H. cbn [bpos] in H.
  set (pre := hdr ++ dirs done total) in *.
  assert (Lp : blen pre = Z.of_nat (List.length done) * 16 + 12).
  { unfold pre. rewrite blen_app, dirs_len by auto. lia. }
  set (rest := repeat 0 (Z.to_nat (16 * Z.of_nat (List.length ts))) ++ datas done ++ data) in *.
  replace (hdr ++ dirs done total ++ repeat 0 (Z.to_nat (16 * Z.of_nat (List.length (tag :: ts)))) ++ datas done ++ data)
    with (pre ++ repeat 0 4 ++ repeat 0 4 ++ repeat 0 4 ++ repeat 0 4 ++ rest) in H.
  2:{ unfold pre, rest. rewrite <- !app_assoc. do 2 f_equal. rewrite !app_assoc, <- !repeat_app. do 3 f_equal. cbn [List.length]. lia. }
  unfold bseek, writeTag, writeUInt32 in H. cbn [bdat] in H. rewrite <- Lp in H.
  rewrite bwrite_mid in H by (rewrite blen_repeat, Htag; reflexivity). rewrite Htag in H.
  rewrite (app_assoc pre) in H.
  replace (blen pre + 4) with (blen (pre ++ tag)) in H by (rewrite blen_app; lia).
  rewrite bwrite_mid in H by (rewrite blen_repeat, be4_len; reflexivity).
  rewrite be4_len in H.
  rewrite (app_assoc (pre ++ tag)) in H.
  replace (blen (pre ++ tag) + 4) with (blen ((pre ++ tag) ++ be4 cs)) in H by (rewrite (blen_app (pre ++ tag)), be4_len; lia).
  rewrite bwrite_mid in H by (rewrite blen_repeat, be4_len; reflexivity). rewrite be4_len in H.
  rewrite (app_assoc ((pre ++ tag) ++ be4 cs)) in H.
  match type of H with context [bwrite (mkBuff (blen ?q + 4) ((?q ++ ?y) ++ ?z)) _] =>
    replace (blen q + 4) with (blen (q ++ y)) in H by (rewrite (blen_app q y); reflexivity) end.
  rewrite bwrite_mid in H by (rewrite blen_repeat, be4_len; reflexivity).
  destruct (IH (done ++ [x])
     (mkBuff (blen (((pre ++ tag) ++ be4 cs) ++ be4 (total + blen (datas done))) + 4)
        ((((pre ++ tag) ++ be4 cs) ++ be4 (total + blen (datas done))) ++ be4 len ++ rest))
     (total + blen (datas done) + blen data) total Hh Hts) with (b' := b') as (l & L1 & L2 & L3).
  { apply Forall_app. split; [auto|]. constructor; [exact Htag|constructor]. }
  { unfold total. rewrite app_length. cbn [List.length]. lia. }
  { rewrite datas_app, blen_app. replace (datas [x]) with data by (unfold x, datas; cbn [flat_map data_of]; rewrite app_nil_r; reflexivity). lia. }
  { right. cbn [bdat]. rewrite dirs_app, datas_app. unfold pre, rest. cbn [dirs].
    replace (datas [x]) with data by (unfold x, datas; cbn [flat_map data_of]; rewrite app_nil_r; reflexivity).
    unfold x, dir_entry. rewrite !app_nil_r, <- !app_assoc. reflexivity. }
  { rewrite app_length. cbn [List.length]. replace (Z.of_nat (List.length done + 1)) with (Z.of_nat (List.length done) + 1) by lia.
    exact H. }
  exists (x :: l). split; [cbn [map]; rewrite L1; reflexivity|]. split; [constructor; [exact E|exact L2]|].
  rewrite L3, <- !app_assoc. reflexivity.
Qed.

(** The header: version 1.0, nine tables, and the three search fields of nine *)
Definition header : bytes := be4 65536 ++ be2 9 ++ be2 128 ++ be2 3 ++ be2 16.
Lemma make_font_ok : forall t beyond m f, make_font t beyond m = Ok f ->
  exists glyf loca l, glyf_and_loca t beyond m = Ok (glyf, loca) /\
    map (fun x => fst (fst (fst x))) l = tags /\ Forall (made t beyond glyf loca) l /\
    f = header ++ dirs l 156 ++ datas l.
Proof.
  intros t beyond m f H. unfold make_font in H. apply bind_ok in H as ([glyf loca] & E & H).
  exists glyf, loca. cbv zeta in H. apply bind_ok in H as (b & F & H). injection H as <-.
  change (Z.of_nat (List.length tags)) with 9 in F.
  change (writeUInt16 (writeUInt16 (writeUInt16 (writeUInt16 (writeUInt32 (mkBuff 0 []) 65536) 9) (2 ^ 3 * 16)) 3) ((9 - 2 ^ 3) * 16))
    with (mkBuff 12 header) in F.
  destruct (font_loop_ok t beyond glyf loca header tags [] (mkBuff 12 header) (12 + 16 * 9) 156) with (b' := b) as (l & L1 & L2 & L3).
  - reflexivity.
  - repeat constructor.
  - constructor.
  - reflexivity.
  - reflexivity.
  - left. split; [auto|]. split; [auto|]. discriminate.
  - exact F.
  - exists l. auto.
Qed.

(** ** Reading the directory of the file *)
Definition pos_of (l : list (bytes * bytes * Z * Z)) (i : nat) : Z := 156 + blen (datas (firstn i l)).

Lemma dirs_split : forall l i x pos, nth_error l i = Some x -> dirs l pos
  = dirs (firstn i l) pos ++ dir_entry x (pos + blen (datas (firstn i l))) ++ dirs (skipn (S i) l) (pos + blen (datas (firstn i l)) + blen (data_of x)).
Proof.
  intros l i x pos H. apply nth_error_split in H as (l1 & l2 & -> & <-).
  rewrite firstn_app, firstn_all, Nat.sub_diag, firstn_O, app_nil_r.
  replace (skipn (S (List.length l1)) (l1 ++ x :: l2)) with l2.
  2:{ rewrite skipn_app, skipn_all2 by lia. replace (S _ - _)%nat with 1%nat by lia. reflexivity. }
  rewrite dirs_app. reflexivity.
Qed.
Lemma datas_split : forall l i x, nth_error l i = Some x -> datas l = datas (firstn i l) ++ data_of x ++ datas (skipn (S i) l).
Proof.
  intros l i x H. apply nth_error_split in H as (l1 & l2 & -> & <-).
  rewrite firstn_app, firstn_all, Nat.sub_diag, firstn_O, app_nil_r.
  replace (skipn (S (List.length l1)) (l1 ++ x :: l2)) with l2.
  2:{ rewrite skipn_app, skipn_all2 by lia. replace (S _ - _)%nat with 1%nat by lia. reflexivity. }
  rewrite datas_app. reflexivity.
Qed.
Lemma Forall_firstn : forall A (P : A -> Prop) n l, Forall P l -> Forall P (firstn n l).
Proof. intros A P n l H. rewrite <- (firstn_skipn n l) in H. apply Forall_app in H. tauto. Qed.

Definition fits (x : bytes * bytes * Z * Z) : Prop := let '(_, _, cs, len) := x in 0 <= cs < 4294967296 /\ 0 <= len < 4294967296.

Lemma entry_read : forall x y tag cs off len, blen tag = 4 -> 0 <= cs < 4294967296 -> 0 <= off < 4294967296 -> 0 <= len < 4294967296 ->
  let f := x ++ (tag ++ be4 cs ++ be4 off ++ be4 len) ++ y in
  bytes_at f (blen x) 4 = Some tag /\ u32 f (blen x + 4) = Some cs /\ u32 f (blen x + 8) = Some off /\ u32 f (blen x + 12) = Some len.
Proof.
  intros x y tag cs off len Ht Hc Ho Hl f. unfold f. clear f. split; [|split; [|split]].
  - rewrite <- (Z.add_0_r (blen x)), bytes_at_app; [|lia|lia|].
    2:{ rewrite !blen_app, !be4_len. lia. }
    rewrite <- (bytes_at_all tag), Ht. apply (bytes_at_app [] tag _ 0 4); lia.
  - rewrite u32_app; [|lia|rewrite !blen_app, !be4_len; lia]. rewrite <- (be4_u32 cs Hc).
    rewrite <- Ht. rewrite <- (Z.add_0_r (blen tag)). apply u32_app; [lia|rewrite be4_len; lia].
  - rewrite u32_app; [|lia|rewrite !blen_app, !be4_len; lia]. rewrite <- (be4_u32 off Ho).
    rewrite (app_assoc tag). replace 8 with (blen (tag ++ be4 cs) + 0) by (rewrite blen_app, be4_len; lia).
    apply u32_app; [lia|rewrite be4_len; lia].
  - rewrite u32_app; [|lia|rewrite !blen_app, !be4_len; lia]. rewrite <- (be4_u32 len Hl).
    rewrite (app_assoc tag), (app_assoc (tag ++ be4 cs)), <- (app_nil_r (be4 len)) at 1.
    replace 12 with (blen ((tag ++ be4 cs) ++ be4 off) + 0) by (rewrite !blen_app, !be4_len; lia).
    apply u32_app; [lia|rewrite be4_len; lia].
Qed.

Lemma file_entry : forall l i tag data cs len, Forall tag4 l -> List.length l = 9%nat -> Forall fits l ->
  let f := header ++ dirs l 156 ++ datas l in
  blen f < 4294967296 -> nth_error l i = Some (tag, data, cs, len) ->
  dir_tag f (Z.of_nat i) = Some tag /\ dir_sum f (Z.of_nat i) = Some cs /\ dir_off f (Z.of_nat i) = Some (pos_of l i) /\
  dir_len f (Z.of_nat i) = Some len /\ bytes_at f (pos_of l i) (blen data) = Some data.
Proof.
  intros l i tag data cs len Ht Hl Hf f Hlen Hn. unfold f in *. clear f.
  assert (Hi : (i < 9)%nat) by (rewrite <- Hl; apply nth_error_Some; congruence).
  assert (Lh : blen header = 12) by reflexivity.
  pose proof (proj1 (Forall_forall _ _) Ht _ (nth_error_In _ _ Hn)) as T4. unfold tag4 in T4. cbn [fst] in T4.
  pose proof (proj1 (Forall_forall _ _) Hf _ (nth_error_In _ _ Hn)) as [C1 C2].
  assert (Lf : blen (dirs (firstn i l) 156) = 16 * Z.of_nat i).
  { rewrite dirs_len by (apply Forall_firstn; auto). rewrite firstn_length. lia. }
  assert (LD : blen (dirs l 156) = 144) by (rewrite dirs_len by auto; lia).
  assert (Hp : 0 <= pos_of l i < 4294967296).
  { unfold pos_of. pose proof (blen_nonneg (datas (firstn i l))). rewrite !blen_app, Lh, LD in Hlen.
    rewrite (datas_split _ _ _ Hn), blen_app in Hlen. pose proof (blen_nonneg (data_of (tag, data, cs, len) ++ datas (skipn (S i) l))). lia. }
  pose proof (dirs_split l i _ 156 Hn) as S1. fold (pos_of l i) in S1. cbn [dir_entry data_of] in S1.
  destruct (entry_read (header ++ dirs (firstn i l) 156) (dirs (skipn (S i) l) (pos_of l i + blen data) ++ datas l) tag cs (pos_of l i) len T4 C1 Hp C2)
    as (R1 & R2 & R3 & R4).
  replace ((header ++ dirs (firstn i l) 156) ++ (tag ++ be4 cs ++ be4 (pos_of l i) ++ be4 len) ++ dirs (skipn (S i) l) (pos_of l i + blen data) ++ datas l)
    with (header ++ dirs l 156 ++ datas l) in * by (rewrite S1, <- !app_assoc; reflexivity).
  replace (blen (header ++ dirs (firstn i l) 156)) with (12 + 16 * Z.of_nat i) in * by (rewrite blen_app, Lh, Lf; reflexivity).
  repeat (split; [assumption|]).
  rewrite (datas_split _ _ _ Hn). cbn [data_of].
  replace (header ++ dirs l 156 ++ datas (firstn i l) ++ data ++ datas (skipn (S i) l))
    with ((header ++ dirs l 156 ++ datas (firstn i l)) ++ data ++ datas (skipn (S i) l)) by (rewrite <- !app_assoc; reflexivity).
  replace (pos_of l i) with (blen (header ++ dirs l 156 ++ datas (firstn i l)) + 0) by (unfold pos_of; rewrite !blen_app, Lh, LD; lia).
  rewrite bytes_at_app by (pose proof (blen_nonneg data); lia). apply bytes_at_all.
Qed.

(** Each of the nine tables is there once. *)
Lemma header_count : forall y, u16 (header ++ y) 4 = Some 9.
Proof. reflexivity. Qed.

Lemma made_tag4 : forall l, map (fun x : bytes * bytes * Z * Z => fst (fst (fst x))) l = tags -> Forall tag4 l /\ List.length l = 9%nat.
Proof.
  intros l H. split.
  - apply Forall_forall. intros x Hx. unfold tag4.
    assert (In (fst (fst (fst x))) tags) by (rewrite <- H; apply (in_map (fun x => fst (fst (fst x)))); auto).
    assert (A : Forall (fun g => blen g = 4) tags) by repeat constructor.
    rewrite Forall_forall in A. auto.
  - rewrite <- (map_length (fun x : bytes * bytes * Z * Z => fst (fst (fst x))) l), H. reflexivity.
Qed.

Lemma tags_nodup : NoDup tags.
Proof. repeat constructor; cbn; intuition discriminate. Qed.

Lemma file_table : forall l i tag data cs len, map (fun x => fst (fst (fst x))) l = tags -> Forall fits l ->
  let f := header ++ dirs l 156 ++ datas l in
  blen f < 4294967296 -> nth_error l i = Some (tag, data, cs, len) -> has_table f tag (pos_of l i) len.
Proof.
  intros l i tag data cs len Hm Hf f Hlen Hn. destruct (made_tag4 _ Hm) as [Ht Hl].
  destruct (file_entry l i tag data cs len Ht Hl Hf Hlen Hn) as (R1 & _ & R3 & R4 & _). fold f in R1, R3, R4.
  assert (Hi : (i < 9)%nat) by (rewrite <- Hl; apply nth_error_Some; congruence).
  exists 9, (Z.of_nat i). split; [apply header_count|]. split; [lia|]. repeat (split; [assumption|]).
  intros j Hj Ej. destruct (nth_error l (Z.to_nat j)) as [[[[tag' data'] cs'] len']|] eqn:E; [|apply nth_error_None in E; lia].
  destruct (file_entry l (Z.to_nat j) tag' data' cs' len' Ht Hl Hf Hlen E) as (R1' & _). fold f in R1'.
  rewrite Z2Nat.id in R1' by lia. assert (tag' = tag) by congruence. subst tag'.
  pose proof tags_nodup as ND. rewrite <- Hm in ND. rewrite NoDup_nth_error in ND.
  rewrite map_length in ND. specialize (ND i (Z.to_nat j)). rewrite !nth_error_map, Hn, E in ND. cbn in ND.
  specialize (ND ltac:(lia) eq_refl). lia.
Qed.

(** Tables begin at multiples of four when all their lengths are. *)
Lemma datas_aligned : forall l, Forall (fun x => blen (data_of x) mod 4 = 0) l -> blen (datas l) mod 4 = 0.
Proof.
  induction l as [|x l IH]; intros H; [reflexivity|]. inversion H; subst. cbn [datas flat_map]. fold (datas l).
  rewrite blen_app, Z.add_mod by lia. rewrite IH by auto. rewrite H2. reflexivity.
Qed.
