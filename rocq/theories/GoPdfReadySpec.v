(** What it means that pdft draws over a document of the writer GoPdf (C86).
    Specification. *)
From Coq Require Import String List ZArith Lia Bool.
From Coq.Floats Require Import SpecFloat.
From Verif Require Import Base Output PdfData PagesSpec InjectSpec ContentSpec SaveSpec Api PdfSyntax Float64 TextSpec GoPdf GoPdfSpec GoPdfDrawSpec GoPdfDocSpec GoPdfResSpec.
Open Scope Z_scope.
Open Scope list_scope.

(** The calls of pdft that add something to the open document: all but those that
    open a document, change its pages or save it. *)
Definition adds (c : call) : Prop :=
  match c with KOpen _ | KRemove _ | KKeep _ | KDuplicate _ _ | KSave _ => False | _ => True end.

(** Page [p] of a document of GoPdf is object [k] of the file [F]; its contents are
    the stream object [c], which says [body]; and these are the operators that the
    calls on the page ask for (C63). *)
Definition made_page (w : gworld) (inflate : bytes -> res bytes) (cfg : gconfig) (F : bytes) (p : f64 * f64 * trace) (k c : Z) (body : bytes) : Prop :=
  page_is F k (cfg_w cfg, cfg_h cfg) (asked cfg (fst p)) c /\ (exists d, decodes inflate None F c d body) /\
  (texts_ok (snd p) -> Forall sound_op (wanted w (snd (asked cfg (fst p))) (snd p)) ->
   exists ops, operators body ops /\ Forall2 fit_op (wanted w (snd (asked cfg (fst p))) (snd p)) ops).

(** Compressed streams can be read again, and do not begin with white space (zlib
    streams begin with the letter x). *)
Definition compresses (w : gworld) (inflate : bytes -> res bytes) : Prop :=
  forall l s, inflate (gw_deflate w l s) = Ok s /\ exists r, gw_deflate w l s = 120 :: r.

(** The pages of the saved document [p'] are those of the file [F] of GoPdf, in
    the same order.  Where pdft drew something, the contents are the operators of
    GoPdf, one line end, and what pdft drew; the contents of the other pages are the
    object that was in the file. *)
Definition over_pages (w : gworld) (inflate : bytes -> res bytes) (cfg : gconfig) (F : bytes) (os : list obj) (ps : list (f64 * f64 * trace)) (kids : list Z) (p' : pdf) (ins : inserts) : Prop :=
  root p' = 1 /\ page_tree p' (Node 2 (map Leaf kids)) /\ NoDup kids /\ List.length kids = List.length ps /\
  forall i k p, nth_error kids i = Some k -> nth_error ps i = Some p -> exists c body, made_page w inflate cfg F p k c body /\
    (inserted ins (1 + Z.of_nat i) -> page_shows (objs p') k c (body ++ [10] ++ drawn ins (1 + Z.of_nat i))) /\
    (~ inserted ins (1 + Z.of_nat i) -> exists o, In o os /\ oid o = c /\ version (objs p') c o).

(** The names of the fonts and images of GoPdf mean the same objects on every page. *)
Definition over_names (F : bytes) (kids : list Z) (p' : pdf) : Prop :=
  forall L, In L kids ->
    (exists fps, page_fonts (objs p') L fps /\ forall name n, resource F (B"Font") name n -> font_named fps name n) /\
    (exists xps, page_images (objs p') L xps /\ forall name n, resource F (B"XObject") name n -> font_named xps name n).

(** All objects of the file are in the saved document unchanged, but for the
    resources (object 3) and the contents of the pages that pdft drew on. *)
Definition over_rest (w : gworld) (inflate : bytes -> res bytes) (cfg : gconfig) (F : bytes) (os : list obj) (ps : list (f64 * f64 * trace)) (kids : list Z) (p' : pdf) (ins : inserts) : Prop :=
  forall o, In o os -> oid o <> 3 ->
    (forall i k p c body, nth_error kids i = Some k -> nth_error ps i = Some p -> made_page w inflate cfg F p k c body -> inserted ins (1 + Z.of_nat i) -> oid o <> c) ->
    version (objs p') (oid o) o.

(** No call on the page is one of those that draw (or set a colour or line). *)
Definition blank_page (p : f64 * f64 * trace) : Prop := Forall (fun x => ~ draws_something (fst x, None)) (snd p).
