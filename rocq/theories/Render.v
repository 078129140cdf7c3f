(** Templates: render/render.go and render/field_info.go. *)
From Coq Require Import String List ZArith Lia Bool Permutation.
From Coq.Floats Require Import SpecFloat.
From Verif Require Import Base Output Props PdfData Float64 Text Wrap Parse Api.
Open Scope Z_scope.
Open Scope list_scope.

(** field_info.go:15-24 FieldInfo *)
Record field := mkField {
  fi_key : bytes; fi_page : Z; fi_x : f64; fi_y : f64; fi_w : f64; fi_h : f64;
  fi_align : Z; fi_font : bytes; fi_size : Z; fi_wrap : bool }.

(** m[k] = v of a map with text keys *)
Fixpoint put_key {A} (k : bytes) (v : A) (m : list (bytes * A)) : list (bytes * A) :=
  match m with
  | [] => [(k, v)]
  | (a, x) :: m' => if beqb a k then (a, v) :: m' else (a, x) :: put_key k v m'
  end.

(** field_info.go:6-12 toMap *)
Definition toMap (fs : list field) : list (bytes * field) :=
  fold_left (fun m f => put_key (fi_key f) f m) fs [].

(** render.go:28-32 Render; [breaker] is textBreaker, None for nil *)
Definition breaker := option (bytes -> res (list bytes)).
Record render := mkRender { rd_pdft : state; rd_map : list (bytes * field); rd_breaker : breaker }.

(** render.go:17-25 NewRender: nil and the error when Open fails *)
Definition newRender (w : world) (fuel : nat) (raw : bytes) (fs : list field) : res render :=
  do r <- openFrom w fuel raw new_pdft;
  match snd r with
  | Some e => Err e
  | None => Ok (mkRender (fst r) (toMap fs) None)
  end.

(** render.go:38-62 Text; errors are wrapped, which keeps what they are *)
Definition render_text (m : list (bytes * field)) (br : breaker) (key text : bytes) (s : state) : ends :=
  match assoc key m with
  | None => ok s
  | Some f =>
    do r <- setFont (fi_font f) [] (fi_size f) s;
    match snd r with
    | Some e => fails (fst r) e
    | None =>
      if fi_wrap f then insertWrapText text (fi_page f) (fi_x f) (fi_y f) (fi_w f) (fi_h f) (fi_align f) None br (fst r)
      else insert_text text (fi_page f) (fi_x f) (fi_y f) (fi_w f) (fi_h f) (fi_align f) None (fst r)
    end
  end.

(** render.go:65-76 ImgBase64 *)
Definition render_img (w : world) (beyond : bytes) (m : list (bytes * field)) (key b64 : bytes) (s : state) : ends :=
  match assoc key m with
  | None => ok s
  | Some f => insertImgBase64 w beyond b64 (fi_page f) (fi_x f) (fi_y f) (fi_w f) (fi_h f) s
  end.

(** render.go:79-85 ShowDesignView: [l] are the entries of the map in the order
    of the iteration; errors are ignored *)
Fixpoint design_loop (l : list (bytes * field)) (s : state) : res state :=
  match l with
  | [] => Ok s
  | (key, f) :: l' =>
    do r <- setFont (fi_font f) [] (fi_size f) s;
    do q <- insert_text (B"#" ++ key) (fi_page f) (fi_x f) (fi_y f) (fi_w f) (fi_h f) (fi_align f) None (fst r);
    design_loop l' (fst q)
  end.
Definition showDesignView (l : list (bytes * field)) (s : state) : res state := design_loop l (showCellBorder true s).
