(** createContent writes segments. *)
From Coq Require Import String List ZArith Lia Bool.
From Coq.Floats Require Import SpecFloat.
From Verif Require Import Base BaseProofs Utf8 PdfSyntax PdfSyntaxProofs HexProofs Float64 Ttf Subset CharMap FontObjects Text TextSpec TextNumbers TextDraw TextBody.
Open Scope Z_scope.
Open Scope list_scope.

(** ** Units *)

Lemma ttf_to_pdf_eq : forall n u, 0 < u -> ttf_to_pdf n u = Ok (Z.quot (1000 * n) u).
Proof.
  intros n u Hu. unfold ttf_to_pdf. destruct (Z.eqb_spec u 0); [lia|]. destruct (Z.ltb_spec n 0); f_equal.
  - replace (-1000 * n) with (- (1000 * n)) by lia. rewrite Z.quot_opp_l by lia. apply Z.opp_involutive.
  - rewrite (Z.rem_mod_nonneg n u) by lia. pose proof (Z.mod_pos_bound n u Hu). rewrite !Z.quot_div_nonneg by lia.
    apply Z.div_unique with (r := ((n mod u * 1000) mod u)).
    + left. apply Z.mod_pos_bound. lia.
    + pose proof (Z.div_mod n u ltac:(lia)). pose proof (Z.div_mod (n mod u * 1000) u ltac:(lia)).
      set (q := n / u) in *. set (r := n mod u) in *. set (q2 := r * 1000 / u) in *. set (r2 := (r * 1000) mod u) in *.
      replace (1000 * n) with (u * (q * 1000) + r * 1000) by (rewrite H1; ring). rewrite H2. ring.
Qed.

(** ** The segments of a list of characters with their glyphs *)

Definition units (u n : Z) : Z := Z.quot (1000 * n) u.
Definition kern_at (f : sfont) (prev : option (Z * Z)) (r g : Z) : Z :=
  match sf_kern f, prev with Some k, Some (l, lg) => units (unitsPerEm (sf_ttf f)) (k l r lg g 0) | _, _ => 0 end.
Definition left_of (prev : option (Z * Z)) : Z := match prev with Some (l, _) => l | None => 0 end.
Fixpoint segs_of (f : sfont) (size : Z) (text : bytes) (prev : option (Z * Z)) (k : Z) (l : list (Z * Z)) : list seg :=
  match l with
  | [] => []
  | (r, g) :: l =>
    let a := kern_at f prev r g in
    (if a =? 0 then [] else [SA (- a)])
    ++ match sf_rise f with Some h => [SR (h (left_of prev) r size text k)] | None => [] end
    ++ SG g :: segs_of f size text (Some (r, g)) (k + 1) l
  end.
Fixpoint sum_of (f : sfont) (prev : option (Z * Z)) (l : list (Z * Z)) : Z :=
  match l with
  | [] => 0
  | (r, g) :: l => match glyph_width (sf_ttf f) g with Ok w => w | _ => 0 end + kern_at f prev r g + sum_of f (Some (r, g)) l
  end.

Lemma segs_app : forall a b, segs_text (a ++ b) = segs_text a ++ segs_text b.
Proof. intros. unfold segs_text. apply flat_map_app. Qed.

Definition glyph_ok (f : sfont) (x : Z * Z) : Prop :=
  val_of (sf_map f) (fst x) = Some (snd x) /\ 0 <= snd x < 65536 /\ exists w, glyph_width (sf_ttf f) (snd x) = Ok w.

Lemma content_segs : forall f size text l prev k out sum, 0 < unitsPerEm (sf_ttf f) -> Forall (glyph_ok f) l ->
  content_loop f size text (map fst l) (match prev with None => true | _ => false end) (left_of prev) (match prev with Some (_, g) => g | None => 0 end) k out sum =
  (out ++ segs_text (segs_of f size text prev k l), Ok (sum + sum_of f prev l)).
Proof.
  intros f size text. induction l as [|[r g] l IH]; intros prev k out sum Hu H.
  - cbn [map content_loop segs_of sum_of]. change (segs_text []) with (@nil Z). rewrite app_nil_r, Z.add_0_r. reflexivity.
  - inversion H as [|? ? (V & G & w & W) Hl]; subst. cbn [fst snd] in *. cbn [map content_loop fst]. unfold char_width, char_index. rewrite V. cbn [bind]. rewrite W.
    assert (K : (match sf_kern f with
                 | Some kf => if match prev with None => true | _ => false end then Ok 0
                   else ttf_to_pdf (kern_of kf (left_of prev) r match prev with Some (_, g0) => g0 | None => 0 end g) (unitsPerEm (sf_ttf f))
                 | None => Ok 0 end) = Ok (kern_at f prev r g)).
    { unfold kern_at. destruct (sf_kern f) as [kf|]; [|reflexivity]. destruct prev as [[a lg]|]; [|reflexivity]. rewrite ttf_to_pdf_eq by exact Hu. reflexivity. }
    rewrite K. set (a := kern_at f prev r g) in *.
    cbv beta iota zeta. specialize (IH (Some (r, g)) (k + 1)). cbn [left_of] in IH. rewrite IH by assumption. cbn [segs_of sum_of]. fold a. rewrite W. f_equal; [|f_equal; lia].
    rewrite !segs_app. change (segs_text (SG g :: segs_of f size text (Some (r, g)) (k + 1) l)) with (hex4 g ++ segs_text (segs_of f size text (Some (r, g)) (k + 1) l)).
    rewrite fhex4_code by exact G. replace (-1 * a) with (- a) by lia.
    destruct (a =? 0), (sf_rise f) as [h|]; cbn [segs_text flat_map seg_text]; rewrite ?app_nil_r, <- ?app_assoc; reflexivity.
Qed.

Lemma content_eq : forall f size text l, 0 < unitsPerEm (sf_ttf f) -> map fst l = runes text -> Forall (glyph_ok f) l ->
  content f size text = (B"[<" ++ segs_text (segs_of f size text None 0 l) ++ B">] TJ" ++ [10], Ok (sum_of f None l)).
Proof.
  intros f size text l Hu E H. unfold content. rewrite <- E. pose proof (content_segs f size text l None 0 (B"[<") 0 Hu H) as C. cbn [left_of] in C. rewrite C.
  rewrite <- app_assoc. reflexivity.
Qed.
