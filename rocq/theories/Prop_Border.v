(** ShowCellBorder: the property C80. *)
From Coq Require Import String List ZArith Lia Bool Reals.
From Coq.Floats Require Import SpecFloat.
From Verif Require Import Base Output OutputSpec Props PropsSpec PdfData PagesSpec Crawl Inject InjectSpec ContentSpec ImgSpec Float64 Text TextSpec TextPlaceSpec TextCases2
  Parse Crypto Api ApiSpec ApiCases SaveSpec SaveDoc SaveLockSpec SaveDrawSpec SaveDrawCases BorderSpec BorderProofs BorderCases.
Open Scope Z_scope.
Open Scope list_scope.

(** Insert was called on page [pg] while borders were shown ([b]) or not, and the
    document is saved.  The operators added to the page are [before], those of the
    text, and [after].  Whatever state the old content leaves (outside of a text
    object, coordinates as at the beginning), the text has a border if and only
    if borders were shown; on the first page it is dotted and a tenth wide, on the
    others lines are as the old content left them.
    Missing: other documents than [ready_document] with a page that takes images; texts with numbers off the paper. *)
Theorem C80_border_partial : forall w fuel ch cs1 s1 log1 t pg x y wd h al c s2 cs2 log2 s s' F rid ts fi xi srcs pw b,
  history w fuel cs1 new_pdft = Ok (s1, log1) -> border_is log1 b -> call_of w fuel (KInsert t pg x y wd h al c) s1 = Ok (s2, None) -> history w fuel cs2 s2 = Ok (s, log2) ->
  saveTo w fuel ch s = Ok (s', Ok F) -> fair (ch_ord ch) -> protected_by s pw ->
  ready_document (d_pdf (s_doc s)) rid ts fi xi ->
  Forall2 (source (w_inflate w) (objs (d_pdf (s_doc s)))) (flat_map leaves ts) srcs ->
  (forall c, In c (content_ids srcs) -> ~ In c (root (d_pdf (s_doc s)) :: rid :: flat_map tree_ids ts) /\ ~ page_object (flat_map leaves ts) fi c) ->
  (depth (Node rid ts) <= fuel)%nat -> 0 <= root (d_pdf (s_doc s)) -> blen F < 10 ^ 10 ->
  (exists L, In L (flat_map leaves ts) /\ pictured (flat_map leaves ts) xi L) ->
  (forall e, In e (s_cont s2) -> well_set s pg e) ->
  exists p' ins ph before ops after, file_holds F p' pw /\ saved_document w s s' rid ts fi xi srcs p' ins /\ pageHeight s1 pg = Ok ph /\
    (forall pid cid old, own_page ts srcs pg pid cid old -> page_shows (objs p') pid cid (old ++ [10] ++ before ++ ops ++ after)) /\
    forall st, g_text st = false -> g_cm st = None -> exists st1 st2 ms0 ms br, draws before st st1 ms0 /\ draws ops st1 st2 (ms ++ br) /\ Forall no_stroke ms /\
      bordered b (if pg =? 1 then dotted_thin else line_style st) (val x) (val y) (val wd) (val h) (val ph) br.
Proof. exact border_from_calls. Qed.
Print Assumptions C80_border_partial.

(** The cell 100 by 20 at (10, 20) on a first page 100 high. *)
Example C80_border_case : exists s1 s s' F p' before ops after,
  history plain_world 5 border_calls new_pdft = Ok (s1, quiet border_calls) /\ call_of plain_world 5 (text_on 1) s1 = Ok (s, None) /\ saveTo plain_world 5 (plain_choices false) s = Ok (s', Ok F) /\
  file_of F p' /\ page_shows (objs p') 3 4 (B"q Q " ++ [10] ++ before ++ ops ++ after) /\
  forall st, g_text st = false -> g_cm st = None -> exists st1 st2 ms0 ms br, draws before st st1 ms0 /\ draws ops st1 st2 (ms ++ br) /\ Forall no_stroke ms /\
    bordered true dotted_thin 10 20 100 20 100 br.
Proof. exact border_case. Qed.

(** On the second page the border is one wide and not dotted: how lines are drawn
    is only written to the first page. *)
Theorem C80_second_page_refuted : exists s1 s s' F p' before ops after,
  history plain_world 5 border_calls new_pdft = Ok (s1, quiet border_calls) /\ border_is (quiet border_calls) true /\ call_of plain_world 5 (text_on 2) s1 = Ok (s, None) /\ saveTo plain_world 5 (plain_choices false) s = Ok (s', Ok F) /\
  file_of F p' /\ page_shows (objs p') 5 6 (B"n " ++ [10] ++ before ++ ops ++ after) /\
  exists st1 st2 ms0 ms br, draws before plain_state st1 ms0 /\ draws ops st1 st2 (ms ++ br) /\ Forall no_stroke ms /\
    List.length br = 4%nat /\ Forall (fun m => match m with Stroke _ wd dash => wd = 100 /\ dash = ([], 0) | _ => False end) br.
Proof. exact second_page. Qed.
Print Assumptions C80_second_page_refuted.

(** After an Open that failed texts have borders, though nobody asked for them. *)
Theorem C80_failed_open_refuted : exists cs s log c f s' F, history plain_world 5 cs new_pdft = Ok (s, log) /\ Forall (fun e => match fst e with KBorder _ => False | _ => True end) log /\
  saveTo plain_world 5 (plain_choices false) s = Ok (s', Ok F) /\ In (CText 0 c) (s_cont s) /\ nth_error (s_fonts s) 0 = Some f /\
  forall index st, g_text st = false -> exists o st2 ms br, text_stream (sfont_of f) index c = Ok o /\ draws o st st2 (ms ++ br) /\ List.length br = 4%nat /\
    Forall (fun m => match m with Stroke _ _ _ => True | _ => False end) br.
Proof. exact failed_open. Qed.
Print Assumptions C80_failed_open_refuted.
