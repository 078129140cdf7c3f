(** Statements about templates. *)
From Coq Require Import String List ZArith Lia Bool Permutation.
From Coq.Floats Require Import SpecFloat.
From Verif Require Import Base Output Props PdfData Float64 Text Wrap Parse Api ApiSpec ApiCases Render RenderProofs.
Open Scope Z_scope.
Open Scope list_scope.

(** ** C40 *)

(** A key that is not defined: nothing happens, nil is returned. *)
Theorem C40_text_unknown : forall fs br key text s, (forall g, In g fs -> fi_key g <> key) ->
  render_text (toMap fs) br key text s = Ok (s, None).
Proof. exact text_unknown. Qed.
Print Assumptions C40_text_unknown.
Theorem C40_img_unknown : forall w b fs key i s, (forall g, In g fs -> fi_key g <> key) ->
  render_img w b (toMap fs) key i s = Ok (s, None).
Proof. exact img_unknown. Qed.
Print Assumptions C40_img_unknown.

(** A key that is defined: f is the last definition.  Either SetFont fails and
    nothing changes, or the outcome is that of SetFont and Insert (InsertWrapText
    for a wrapped field) with the values of f. *)
Theorem C40_text_last : forall w fuel fs1 f fs2 br text s s' e, (forall g, In g fs2 -> fi_key g <> fi_key f) ->
  render_text (toMap (fs1 ++ f :: fs2)) br (fi_key f) text s = Ok (s', e) ->
  (exists e0, call_of w fuel (KSetFont (fi_font f) [] (fi_size f)) s = Ok (s', Some e0) /\ e = Some e0 /\ s' = s) \/
  (exists log, history w fuel
     [KSetFont (fi_font f) [] (fi_size f);
      if fi_wrap f then KWrap text (fi_page f) (fi_x f) (fi_y f) (fi_w f) (fi_h f) (fi_align f) None br
      else KInsert text (fi_page f) (fi_x f) (fi_y f) (fi_w f) (fi_h f) (fi_align f) None] s = Ok (s', log) /\ map snd log = [None; e]).
Proof. exact text_known. Qed.
Print Assumptions C40_text_last.
Theorem C40_img_last : forall w fuel b fs1 f fs2 i s, (forall g, In g fs2 -> fi_key g <> fi_key f) ->
  render_img w b (toMap (fs1 ++ f :: fs2)) (fi_key f) i s
  = call_of w fuel (KImg64 b i (fi_page f) (fi_x f) (fi_y f) (fi_w f) (fi_h f)) s.
Proof. exact img_known. Qed.
Print Assumptions C40_img_last.

(** ShowDesignView, whatever the order of the map: each key once, with a hash mark. *)
Theorem C40_design_view : forall fs l s s', Permutation l (toMap fs) -> showDesignView l s = Ok s' ->
  (forall f, In f fs -> lookup (fi_font f) (s_names s) <> None) ->
  exists new, flat_map (fun c => match c with CText _ c => [(ct_text c, ct_page c)] | _ => [] end) (s_cont s')
    = flat_map (fun c => match c with CText _ c => [(ct_text c, ct_page c)] | _ => [] end) (s_cont s) ++ new /\ NoDup (map fst new) /\
    forall t, In t (map fst new) <-> exists f, In f fs /\ t = B"#" ++ fi_key f.
Proof. exact design_view. Qed.
Print Assumptions C40_design_view.

Definition case_fields : list field :=
  [mkField (B"a") 1 (fofz 10) (fofz 20) (fofz 100) (fofz 20) 0 (B"T") 9 false;
   mkField (B"b") 1 (fofz 10) (fofz 40) (fofz 100) (fofz 20) 0 (B"U") 9 false;
   mkField (B"a") 2 (fofz 10) (fofz 60) (fofz 100) (fofz 20) 0 (B"T") 8 false].
Definition outcome_of (r : ends) : res (option err * list (bytes * Z * Z)) :=
  do q <- r; Ok (snd q, flat_map (fun c => match c with CText _ c => [(ct_text c, ct_page c, ct_size c)] | _ => [] end) (s_cont (fst q))).
Example C40_case : exists s, after start = Ok s /\
  outcome_of (render_text (toMap case_fields) None (B"a") (B"A") s) = Ok (None, [(B"A", 2, 8)]) /\
  outcome_of (render_text (toMap case_fields) None (B"b") (B"A") s) = Ok (Some EFontNameNotFound, []) /\
  outcome_of (render_text (toMap case_fields) None (B"c") (B"A") s) = Ok (None, []).
Proof. eexists. split; [vm_compute; reflexivity|]. split; [vm_compute; reflexivity|]. split; vm_compute; reflexivity. Qed.
