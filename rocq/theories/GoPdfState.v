(** What the calls do to the settings, the fonts and the images. *)
From Coq Require Import String List ZArith Lia Bool.
From Coq.Floats Require Import SpecFloat.
From Verif Require Import Base BaseProofs Output Png Crypto Float64 Ttf Subset CharMap Text ApiIds GoPdf GoPdfSpec GoPdfFile GoPdfPages GoPdfRun GoPdfDoc.
Open Scope Z_scope.
Open Scope list_scope.

(** ** One call *)

Definition has_font (family : bytes) (style : Z) (f : gfont) : bool := beqb (gf_family f) family && (gf_style f =? no_underline style).
Definition selects (g : gp) (family : bytes) (style size : Z) (e : option err) (u' : gcur) : Prop :=
  match e with
  | Some _ => u' = g_cur g /\ find_font (g_objs g) (g_fonts g) (has_font family style) = None
  | None => exists n f, find_font (g_objs g) (g_fonts g) (has_font family style) = Some n /\ nth_error (g_fonts g) n = Some f /\
              u' = u_set_font (g_cur g) size style (gf_count f) n
  end.
Definition cur_next (w : gworld) (g : gp) (c : gcall) (e : option err) (u' : gcur) : Prop :=
  let u := g_cur g in
  match c with
  | AddPage o => u' = u_set_xy (u_set_page u (if opt_empty o then (cfg_w (g_cfg g), cfg_h (g_cfg g)) else o)) (g_left g) (g_top g)
  | SetFont f st sz => selects g f st sz e u'
  | SetFontString f st sz => selects g f (converted_style st) sz e u'
  | AddFont _ _ _ _ _ => exists k, u' = u_set_fonts u k
  | Text _ | Cell _ _ | CellOpt _ _ _ _ _ | Measure _ => exists x y, u' = u_set_xy u x y
  | ImageBy id d _ _ _ r =>
    match e with
    | Some _ => u' = u
    | None => match find (fun c => beqb id (fst (fst c))) (u_cache u) with
              | Some _ => u' = u
              | None => exists q, u' = u_add_img u id q /\ match r with Some r => q = r | None => img_rect w d = Ok q end
              end
    end
  | LineWidth v => u' = u_set_line u v
  | GrayFill v => u' = u_set_gray u v
  | TextColor c => u' = u_set_color u c
  | Br h => u' = u_set_xy u (g_left g) (fadd (u_y u) h)
  | SetX x => u' = u_count_setx u x
  | SetY y => u' = u_set_xy u (u_x u) y
  | _ => u' = u
  end.
(** The font a call of text uses gets the characters up to the first it does not have. *)
Definition chars_of (g : gp) (t : bytes) (fs : list gfont) : Prop :=
  exists n f, u_font (g_cur g) = Some n /\ nth_error (g_fonts g) n = Some f /\
    fs = set_nth n (fun f => gf_set_map f (fst (add_chars (gf_ttf f) t (gf_map f)))) (g_fonts g).
Definition fonts_next (g : gp) (c : gcall) (e : option err) (fs : list gfont) : Prop :=
  match c with
  | AddFont family kerning style file beyond =>
    match e with
    | Some _ => fs = g_fonts g
    | None => exists d t k n cid uni, file = Some d /\ parseTtf d = Ok t /\ (if kerning then parseKern d (tables t) = Ok k else k = []) /\
                fs = g_fonts g ++ [mkGF family t beyond [] n kerning style k None cid uni]
    end
  | Text t | Cell _ t | CellOpt _ t _ _ _ | Measure t => chars_of g t fs
  | KernOverride f k => match e with Some _ => fs = g_fonts g | None => exists n, fs = set_nth n (fun f => gf_set_over f k) (g_fonts g) end
  | _ => fs = g_fonts g
  end.

Definition same_small (g g' : gp) : Prop := g_cur g' = g_cur g /\ g_fonts g' = g_fonts g /\ g_prot g' = g_prot g /\ g_level g' = g_level g /\ g_info g' = g_info g.
Lemma getContent_small : forall g g1 i s cs, getContent g = Ok (g1, i, s, cs) -> same_small g g1.
Proof.
  intros g g1 i s cs H. unfold getContent in H. destruct (g_content g <=? -1).
  - cbn [addObj] in H. injection H as <- _ _ _. repeat split.
  - destruct (kind_at g (g_content g)) as [k| | |]; cbn [bind] in H; try discriminate. destruct k; try discriminate. injection H as <- _ _ _. repeat split.
Qed.
Lemma draw_small : forall g f g', draw g f = Ok g' -> same_small g g'.
Proof.
  intros g f g' H. unfold draw in H. destruct (getContent g) as [[[[g1 i] s] cs]| | |] eqn:E; cbn [bind] in H; try discriminate. injection H as <-.
  exact (getContent_small _ _ _ _ _ E).
Qed.
Lemma gok_small : forall g f g' e, gok (draw g f) = Ok (g', e) -> same_small g g' /\ e = None.
Proof.
  intros g f g' e H. unfold gok in H. destruct (draw g f) as [g1| | |] eqn:E; cbn [bind] in H; try discriminate. injection H as <- <-. split; [|reflexivity].
  eapply draw_small; eauto.
Qed.
Lemma set_nth_ext : forall A (f h : A -> A) n l x, nth_error l n = Some x -> f x = h x -> set_nth n f l = set_nth n h l.
Proof.
  intros A f h. induction n as [|n IH]; intros [|y l] x E H; try discriminate; cbn [nth_error set_nth] in *; [injection E as ->; rewrite H; reflexivity|].
  f_equal. eapply IH; eauto.
Qed.
Lemma chars_small : forall g t g1 n e, add_text_chars g t = Ok (g1, n, e) ->
  g_cur g1 = g_cur g /\ chars_of g t (g_fonts g1) /\ u_font (g_cur g) = Some n /\ g_prot g1 = g_prot g /\ g_level g1 = g_level g /\ g_info g1 = g_info g.
Proof.
  intros g t g1 n e H. unfold add_text_chars in H. destruct (u_font (g_cur g)) as [m|] eqn:Eu; [|discriminate].
  destruct (nth_error (g_fonts g) m) as [f|] eqn:En; [|discriminate]. destruct (add_chars (gf_ttf f) t (gf_map f)) as (mm, r) eqn:Ea.
  assert (X : forall g1', g1' = g_set_fonts g (set_nth m (fun f => gf_set_map f mm) (g_fonts g)) -> chars_of g t (g_fonts g1')).
  { intros g1' ->. exists m, f. split; [exact Eu|]. split; [exact En|]. cbn [g_fonts g_set_fonts]. eapply set_nth_ext; [exact En|]. rewrite Ea. reflexivity. }
  destruct r; try discriminate; injection H as <- <- _; (split; [reflexivity|]); (split; [apply X; reflexivity|]); auto.
Qed.
Lemma text_small : forall g cell rect al bo fl t g' e, text_call cell rect al bo fl t g = Ok (g', e) ->
  (exists x y, g_cur g' = u_set_xy (g_cur g) x y) /\ chars_of g t (g_fonts g') /\ g_prot g' = g_prot g /\ g_level g' = g_level g /\ g_info g' = g_info g.
Proof.
  intros g cell rect al bo fl t g' e H. unfold text_call in H. destruct (add_text_chars g t) as [[[g1 n] e1]| | |] eqn:E; cbn [bind] in H; try discriminate.
  destruct (chars_small _ _ _ _ _ E) as (E1 & E2 & _ & E3 & E4 & E5). destruct e1 as [e1|].
  - injection H as <- _. split; [exists (u_x (g_cur g)), (u_y (g_cur g)); rewrite E1; destruct (g_cur g); reflexivity|]. auto.
  - unfold put_text in H. destruct (getContent g1) as [[[[g2 i] s] cs]| | |] eqn:Eg; cbn [bind] in H; try discriminate.
    destruct (getContent_small _ _ _ _ _ Eg) as (S1 & S2 & S3 & S4 & S5).
    match type of H with context [append_text ?a ?b ?c ?d] => destruct (append_text a b c d) as [[[cs' x] y] r] end.
    assert (X : forall k, let g3 := g_set_cur (put_kind g2 i k) (u_set_xy (g_cur g1) x y) in
      (exists x y, g_cur g3 = u_set_xy (g_cur g) x y) /\ chars_of g t (g_fonts g3) /\ g_prot g3 = g_prot g /\ g_level g3 = g_level g /\ g_info g3 = g_info g).
    { intros k. cbv zeta. split; [exists x, y; cbn [g_cur g_set_cur]; rewrite E1; reflexivity|]. cbn [g_fonts g_set_cur put_kind g_set_objs g_prot g_level g_info].
      rewrite S2, S3, S4, S5, E3, E4, E5. auto. }
    destruct r; try discriminate; injection H as <- _; apply X.
Qed.


Lemma draw_procset : forall g f g', draw g f = Ok g' -> g_procset g' = g_procset g.
Proof.
  intros g f g' H. unfold draw in H. destruct (getContent g) as [[[[g1 i] s] cs]| | |] eqn:E; cbn [bind] in H; try discriminate. injection H as <-.
  unfold getContent in E. destruct (g_content g <=? -1).
  - cbn [addObj] in E. injection E as <- _ _ _. reflexivity.
  - destruct (kind_at g (g_content g)) as [k| | |]; cbn [bind] in E; try discriminate. destruct k; try discriminate. injection E as <- _ _ _. reflexivity.
Qed.
Lemma image_small : forall w b id d x y r g g' e, g_procset g <> -1 -> g_image w b id d x y r g = Ok (g', e) -> cur_next w g (ImageBy id d b x y r) e (g_cur g') /\
  g_fonts g' = g_fonts g /\ g_prot g' = g_prot g /\ g_level g' = g_level g /\ g_info g' = g_info g.
Proof.
  intros w b id d x y r g g' e HP H. unfold g_image in H. unfold cur_next. destruct (find _ (u_cache (g_cur g))) as [[[nm k] rr]|] eqn:Ef.
  - destruct (k =? -1); [discriminate|]. destruct (match r with Some r => Ok r | None => _ end) as [q| | |]; cbn [bind] in H; try discriminate.
    destruct (gok_small _ _ _ _ H) as ((S1 & S2 & S3 & S4 & S5) & ->). rewrite S1, S2, S3, S4, S5. auto.
  - destruct (match r with Some r => Ok r | None => img_rect w d end) as [q| | |] eqn:Eq; try discriminate; [|injection H as <- <-; auto].
    destruct (parseImg (gw_config w) (gw_inflate w) (gw_compress w) b d) as [info| | |]; try discriminate; [|injection H as <- <-; auto].
    assert (Q : match r with Some r => q = r | None => img_rect w d = Ok q end). { destruct r; [congruence|exact Eq]. }
    clear Eq. unfold img_put in H. destruct (addObj g (KImage info 0 (g_prot g))) as (g1, i) eqn:E1. cbn [addObj] in E1.
    assert (G1 : same_small g g1 /\ g_procset g1 = g_procset g). { injection E1 as <- _. repeat split. }
    clear E1. destruct G1 as ((S1 & S2 & S3 & S4 & S5) & S6).
    match type of H with bind ?m _ = _ => destruct m as [g2| | |] eqn:E2; cbn [bind] in H; try discriminate end.
    assert (X : (exists q, g_cur g2 = u_add_img (g_cur g) id q /\ match r with Some r => q = r | None => img_rect w d = Ok q end) /\
      g_fonts g2 = g_fonts g /\ g_prot g2 = g_prot g /\ g_level g2 = g_level g /\ g_info g2 = g_info g).
    { destruct (g_procset g1 =? -1) eqn:Ep; [exfalso; apply Z.eqb_eq in Ep; congruence|].
      destruct (kind_at g1 (g_procset g1)) as [ps| | |]; cbn [bind] in E2; try discriminate. destruct ps; try discriminate.
      destruct (draw g1 _) as [g3| | |] eqn:E3; cbn [bind] in E2; try discriminate. injection E2 as <-.
      destruct (draw_small _ _ _ E3) as (T1 & T2 & T3 & T4 & T5).
      cbn [g_cur g_set_cur put_kind g_set_objs g_fonts g_prot g_level g_info]. rewrite T1, T2, T3, T4, T5, S1, S2, S3, S4, S5. split; [exists q; split; [reflexivity|exact Q]|auto]. }
    clear E2. destruct X as (X1 & X2). assert (E' : e = None /\ same_small g2 g').
    { destruct (createSMask info) as [m|].
      - cbn [addObj] in H. destruct (beqb (colspace info) (B"Indexed")).
        + match type of H with bind ?m _ = _ => destruct m as [k| | |]; cbn [bind] in H; try discriminate end. destruct k; try discriminate. injection H as <- <-. repeat split.
        + injection H as <- <-. repeat split.
      - cbn [addObj] in H. destruct (beqb (colspace info) (B"Indexed")).
        + match type of H with bind ?m _ = _ => destruct m as [k| | |]; cbn [bind] in H; try discriminate end. destruct k; try discriminate. injection H as <- <-. repeat split.
        + injection H as <- <-. repeat split. }
    destruct E' as (-> & U1 & U2 & U3 & U4 & U5). rewrite U1, U2, U3, U4, U5. split; [exact X1|exact X2].
Qed.

Lemma font_small : forall family kerning style file beyond g g' e, g_add_font family kerning style file beyond g = Ok (g', e) ->
  (exists k, g_cur g' = u_set_fonts (g_cur g) k) /\ fonts_next g (AddFont family kerning style file beyond) e (g_fonts g') /\
  g_prot g' = g_prot g /\ g_level g' = g_level g /\ g_info g' = g_info g.
Proof.
  intros family kerning style file beyond g g' e H. unfold g_add_font in H.
  assert (U0 : exists k, g_cur g = u_set_fonts (g_cur g) k). { exists (u_fonts (g_cur g)). destruct (g_cur g). reflexivity. }
  unfold fonts_next. destruct file as [d|]; [|injection H as <- <-; auto].
  destruct (parseTtf d) as [t| | |] eqn:Et; cbn [bind] in H; try discriminate; [|injection H as <- <-; auto].
  destruct (if kerning then parseKern d (tables t) else Ok []) as [k| | |] eqn:Ek; cbn [bind] in H; try discriminate; [|injection H as <- <-; auto].
  assert (K : if kerning then parseKern d (tables t) = Ok k else k = []). { destruct kerning; [exact Ek|congruence]. }
  cbn [addObj] in H. cbv zeta in H. match type of H with (if g_procset ?g1 =? -1 then _ else _) = _ => set (g5 := g1) in H end.
  assert (S : same_small g g5) by (repeat split). clearbody g5. destruct S as (S1 & S2 & S3 & S4 & S5).
  destruct (g_procset g5 =? -1).
  - assert (E : e = None) by congruence. match type of H with Ok (?a, _) = _ => assert (E2 : g' = a) by congruence end. subst e g'.
    cbn [g_cur g_set_fonts g_fonts g_prot g_level g_info]. rewrite S1, S2, S3, S4, S5. split; [exact U0|]. split; [|auto]. exists d, t, k. eexists _, _, _. auto.
  - destruct (kind_at g5 (g_procset g5)) as [ps| | |]; cbn [bind] in H; try discriminate. destruct ps; try discriminate.
    destruct (existsb _ _); assert (E : e = None) by congruence; match type of H with Ok (?a, _) = _ => assert (E2 : g' = a) by congruence end; subst e g';
    cbn [g_cur g_set_fonts g_set_cur put_kind g_set_objs g_fonts g_prot g_level g_info]; rewrite S1, S2, S3, S4, S5.
    + split; [exact U0|]. split; [|auto]. exists d, t, k. eexists _, _, _. auto.
    + split; [eexists; reflexivity|]. split; [|auto]. exists d, t, k. eexists _, _, _. auto.
Qed.

Lemma select_small : forall family style size g g' e, g_set_font family style size g = Ok (g', e) ->
  selects g family style size e (g_cur g') /\ g_fonts g' = g_fonts g /\ g_prot g' = g_prot g /\ g_level g' = g_level g /\ g_info g' = g_info g.
Proof.
  intros family style size g g' e H. unfold g_set_font in H. unfold selects, has_font.
  destruct (find_font _ _ _) as [n|] eqn:Ef; [|injection H as <- <-; auto].
  destruct (nth_error (g_fonts g) n) as [f|] eqn:En; [|discriminate]. injection H as <- <-. split; [|auto]. exists n, f. auto.
Qed.

Lemma kern_small : forall family k g g' e, g_kern_override family k g = Ok (g', e) ->
  g_cur g' = g_cur g /\ fonts_next g (KernOverride family k) e (g_fonts g') /\ g_prot g' = g_prot g /\ g_level g' = g_level g /\ g_info g' = g_info g.
Proof.
  intros family k g g' e H. unfold g_kern_override in H. destruct (find_font _ _ _) as [n|]; injection H as <- <-; (split; [reflexivity|]); (split; [|auto]); [exists n|]; reflexivity.
Qed.

Theorem step_small : forall w g c g' e, g_procset g <> -1 -> gstep w g c = Ok (g', e) -> cur_next w g c e (g_cur g') /\ fonts_next g c e (g_fonts g') /\ g_prot g' = g_prot g /\
  g_info g' = match c with Info i => Some i | _ => g_info g end.
Proof.
  intros w g c g' e HP H. unfold cur_next at 1. destruct c; cbn [gstep] in H; cbv zeta;
    try (unfold gok in H; cbn [bind] in H; injection H as <- <-; repeat split; fail);
    try (destruct (gok_small _ _ _ _ H) as ((S1 & S2 & S3 & S4 & S5) & ->); repeat split; assumption).
  - unfold gok in H. cbn [bind] in H. injection H as <- <-. unfold g_add_page. cbn [addObj]. cbv zeta. cbn [g_first g_set_objs g_set_cur].
    destruct (g_first g =? -1); repeat split.
  - destruct (select_small _ _ _ _ _ _ H) as (A & C & D & D2 & D3). auto.
  - destruct (select_small _ _ _ _ _ _ H) as (A & C & D & D2 & D3). auto.
  - destruct (font_small _ _ _ _ _ _ _ _ H) as (A & C & D & D2 & D3). auto.
  - destruct (kern_small _ _ _ _ _ H) as (A & C & D & D2 & D3). auto.
  - destruct (text_small _ _ _ _ _ _ _ _ _ H) as (A & C & D & D2 & D3). auto.
  - destruct (text_small _ _ _ _ _ _ _ _ _ H) as (A & C & D & D2 & D3). auto.
  - destruct (text_small _ _ _ _ _ _ _ _ _ H) as (A & C & D & D2 & D3). auto.
  - destruct (image_small _ _ _ _ _ _ _ _ _ _ HP H) as (A & C & D & D2 & D3). auto.
  - unfold g_compress_level in H. unfold gok in H. cbn [bind] in H. destruct (l <? -2); [injection H as <- <-; repeat split|].
    destruct (9 <? l); injection H as <- <-; repeat split.
  - unfold g_measure in H. destruct (add_text_chars g text) as [[[g1 n] [e1|]]| | |] eqn:E; cbn [bind] in H; try discriminate. injection H as <- <-.
    destruct (chars_small _ _ _ _ _ E) as (E1 & E2 & _ & E3 & E4 & E5). split; [|auto]. exists (u_x (g_cur g)), (u_y (g_cur g)). rewrite E1. destruct (g_cur g). reflexivity.
Qed.

(** ** Runs *)

(** Fonts keep their place and their file. *)
Definition grows (fs fs' : list gfont) : Prop := forall n f, nth_error fs n = Some f -> exists f', nth_error fs' n = Some f' /\ gf_ttf f' = gf_ttf f.
Lemma grows_refl : forall fs, grows fs fs.
Proof. intros fs n f H. exists f. auto. Qed.
Lemma grows_trans : forall a b c, grows a b -> grows b c -> grows a c.
Proof. intros a b c H K n f E. destruct (H n f E) as (f' & E' & T). destruct (K n f' E') as (f2 & E2 & T2). exists f2. split; [exact E2|congruence]. Qed.
Lemma grows_set : forall fs n h, (forall f, gf_ttf (h f) = gf_ttf f) -> grows fs (set_nth n h fs).
Proof.
  intros fs n h H m f E. destruct (Nat.eq_dec m n) as [->|Ne].
  - rewrite nth_set, E. exists (h f). split; [reflexivity|apply H].
  - rewrite nth_set_other by exact Ne. exists f. auto.
Qed.
Lemma fonts_grow : forall g c e fs, fonts_next g c e fs -> grows (g_fonts g) fs.
Proof.
  intros g c e fs H. destruct c; cbn [fonts_next] in H; try (subst fs; apply grows_refl);
    try (destruct H as (n & f & _ & _ & ->); apply grows_set; reflexivity).
  - destruct e; [subst fs; apply grows_refl|]. destruct H as (d & t & k & n & cid & uni & _ & _ & _ & ->). intros m f E. exists f. split; [|reflexivity].
    rewrite nth_error_app1; [exact E|]. apply nth_error_Some. congruence.
  - destruct e; [subst fs; apply grows_refl|]. destruct H as (n & ->). apply grows_set. reflexivity.
Qed.

Definition maps_good (fs : list gfont) : Prop := Forall (fun f => good_map (gf_ttf f) (gf_map f)) fs.
Lemma forall_set : forall A (P : A -> Prop) l n h, Forall P l -> (forall x, P x -> P (h x)) -> Forall P (set_nth n h l).
Proof.
  intros A P. induction l as [|x l IH]; intros [|n] h F H; cbn [set_nth]; try constructor; inversion F; subst; auto.
Qed.
Lemma maps_next : forall g c e fs, fonts_next g c e fs -> maps_good (g_fonts g) -> maps_good fs.
Proof.
  intros g c e fs H G. destruct c; cbn [fonts_next] in H; try (subst fs; exact G);
    try (destruct H as (n & f & _ & _ & ->); apply forall_set; [exact G|]; intros x Gx; cbn [gf_ttf gf_map gf_set_map];
         match goal with |- good_map _ (fst (add_chars ?a ?t ?m)) => destruct (add_chars a t m) as (m', o) eqn:E; exact (proj1 (add_runes_grows _ _ _ _ _ E Gx)) end).
  - destruct e; [subst fs; exact G|]. destruct H as (d & t & k & n & cid & uni & _ & _ & _ & ->). apply Forall_app. split; [exact G|].
    constructor; [apply good_nil|constructor].
  - destruct e; [subst fs; exact G|]. destruct H as (n & ->). apply forall_set; [exact G|]. intros x Gx. exact Gx.
Qed.

Definition numbered (u : gcur) : Prop :=
  u_imgs u = Z.of_nat (List.length (u_cache u)) /\ forall i c, nth_error (u_cache u) i = Some c -> snd (fst c) = Z.of_nat i.
Lemma numbered_next : forall w g c e u', cur_next w g c e u' -> numbered (g_cur g) -> numbered u'.
Proof.
  intros w g c e u' H N. unfold cur_next in H. destruct c; cbv zeta in H; try (subst u'; exact N);
    try (destruct H as (x & y & ->); exact N); try (destruct H as (k & ->); exact N);
    try (unfold selects in H; destruct e; [destruct H as (-> & _); exact N|]; destruct H as (n & f & _ & _ & ->); exact N).
  destruct e; [subst u'; exact N|]. destruct (find _ (u_cache (g_cur g))); [subst u'; exact N|]. destruct H as (q & -> & _).
  destruct N as (N1 & N2). split; cbn [u_imgs u_cache u_add_img].
  - rewrite app_length. cbn [List.length]. lia.
  - intros i c Hi. destruct (Nat.lt_ge_cases i (List.length (u_cache (g_cur g)))) as [L|L].
    + rewrite nth_error_app1 in Hi by exact L. apply N2. exact Hi.
    + rewrite nth_error_app2 in Hi by exact L. destruct (i - List.length (u_cache (g_cur g)))%nat as [|k] eqn:Ek; [|destruct k; discriminate].
      injection Hi as <-. cbn [fst snd]. rewrite N1. lia.
Qed.

Lemma empty_zero_all : forall o, opt_empty o = zero (fst o) && zero (snd o).
Proof.
  intros (a, c). unfold opt_empty. cbn [fst snd]. change (fofz 0) with (S754_zero false).
  assert (X : forall x, feq x (S754_zero false) = zero x). { intros x. destruct x as [s|[]| |[] m e]; reflexivity. }
  rewrite !X. apply andb_comm.
Qed.

Lemma page_next : forall w g c e u', cur_next w g c e u' -> u_page u' = match c with AddPage o => asked (g_cfg g) o | _ => u_page (g_cur g) end.
Proof.
  intros w g c e u' H. unfold cur_next in H. destruct c; cbv zeta in H; try (subst u'; reflexivity);
    try (destruct H as (x & y & ->); reflexivity); try (destruct H as (k & ->); reflexivity);
    try (unfold selects in H; destruct e; [destruct H as (-> & _); reflexivity|]; destruct H as (n & f & _ & _ & ->); reflexivity).
  - subst u'. cbn [u_page u_set_xy u_set_page]. unfold asked. rewrite empty_zero_all. reflexivity.
  - destruct e; [subst u'; reflexivity|]. destruct (find _ (u_cache (g_cur g))); [subst u'; reflexivity|]. destruct H as (q & -> & _). reflexivity.
Qed.

(** The size of the page that is open. *)
Definition open_page (ps : list (f64 * f64 * trace)) (cfg : gconfig) (u : gcur) : Prop := forall a p, ps = a ++ [p] -> u_page u = asked cfg (fst p).

Record steady (cfg : gconfig) (t : trace) (g : gp) : Prop := mkSteady {
  sd_maps : maps_good (g_fonts g); sd_imgs : numbered (g_cur g); sd_page : open_page (pages_of t) cfg (g_cur g) }.

Lemma start_small : forall rnd cfg g0, g_start rnd cfg gp0 = Ok g0 -> g_fonts g0 = [] /\ u_imgs (g_cur g0) = 0 /\ u_cache (g_cur g0) = [].
Proof.
  intros rnd cfg g0 H. unfold g_start in H. cbv zeta in H. cbn [addObj] in H.
  match type of H with bind ?e _ = _ => destruct e as [p| | |]; cbn [bind] in H; try discriminate end. injection H as <-. auto.
Qed.

Lemma inv_proc : forall cfg g pl, inv cfg g pl -> g_procset g <> -1.
Proof. intros cfg g pl V. destruct (iv_cfg _ _ _ V) as (_ & _ & E & _). lia. Qed.

Theorem steady_run : forall rnd cfg w g0 t g, g_start rnd cfg gp0 = Ok g0 -> runs w g0 t g -> steady cfg t g.
Proof.
  intros rnd cfg w g0 t g S R. pose proof (inv_start _ _ _ S) as V0. destruct (start_small _ _ _ S) as (F0 & I0 & C0).
  induction R as [|t g c g' e R IH Sc].
  - constructor.
    + rewrite F0. constructor.
    + split; rewrite C0; [exact I0|]. intros [|i] c H; discriminate.
    + intros a p H. destruct a; discriminate.
  - pose proof (inv_run _ _ _ _ _ V0 R) as V. destruct (step_small _ _ _ _ _ (inv_proc _ _ _ V) Sc) as (A & C & _). destruct IH as [M N P].
    constructor; [eapply maps_next; eauto|eapply numbered_next; eauto|].
    intros a p H. rewrite pages_snoc in H. unfold page_step in H. cbn [fst snd] in H. rewrite (page_next _ _ _ _ _ A).
    destruct (iv_cfg _ _ _ V) as (Ec & _). rewrite Ec.
    assert (L : on_last (fun p => (fst p, snd p ++ [(g, c, e)])) (pages_of t) = a ++ [p] -> u_page (g_cur g) = asked cfg (fst p)).
    { intros H1. destruct (last_cases _ (pages_of t)) as [E|(b & q & E)].
      - rewrite E in H1. destruct a; discriminate.
      - rewrite E, on_last_snoc in H1. apply app_inj_tail in H1. destruct H1 as (_ & <-). cbn [fst]. exact (P _ _ E). }
    destruct c; try (apply L; exact H). apply app_inj_tail in H. destruct H as (_ & <-). reflexivity.
Qed.
