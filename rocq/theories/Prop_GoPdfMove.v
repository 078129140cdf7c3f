(** Where the texts of GoPdf move the position to and how its contents are
    compressed: the properties C70 and C73. *)
From Coq Require Import String List ZArith Lia Bool.
From Coq.Floats Require Import SpecFloat.
From Verif Require Import Base Float64 Ttf Subset Text TextSpec GoPdf GoPdfSpec GoPdfDrawSpec GoPdfDocSpec GoPdfTree GoPdfMoveSpec GoPdfMove GoPdfCases GoPdfMoveCases.
Open Scope Z_scope.
Open Scope list_scope.

(** ** C70: the position after a text *)

(** A text that begins a line of its own moves the position by its rectangle, or
    by the width of its glyphs and the height of the font: to the right and down
    as the option says. One that is added to a line of texts moves it by the width
    of the whole line (which is what C70_advance_refuted shows on an example). *)
Theorem C70_moves : forall w rnd cfg t F, document w rnd cfg t F -> forall a q c q' c' e' b A ps p, t = a ++ (q, c, None) :: (q', c', e') :: b ->
  text_args c = Some A -> pages_of a = ps ++ [p] -> texts_ok (snd p) -> let old := pieces w (snd (asked cfg (fst p))) (snd p) in
  exists n f, u_font (g_cur q) = Some n /\ nth_error (g_fonts q) n = Some f /\
    ((forall l, ~ joins old l q) -> (a_rect A = None -> measurable f (a_text A)) -> let (w, h) := extent f (u_size (g_cur q)) (a_rect A) (a_text A) in
       u_x (g_cur q') = (if to_right c || negb (a_cell A) then fadd (u_x (g_cur q)) w else u_x (g_cur q)) /\
       u_y (g_cur q') = (if down c then fadd (u_y (g_cur q)) h else u_y (g_cur q))) /\
    (forall l, joins old l q -> a_cell (l_args l) = false -> exists m fl, u_font (g_cur (l_first l)) = Some m /\ nth_error (g_fonts q) m = Some fl /\
       (measurable fl (l_text l ++ a_text A) -> u_x (g_cur q') = fadd (u_x (g_cur q)) (fst (extent fl (u_size (g_cur (l_first l))) None (l_text l ++ a_text A))))).
Proof. exact text_moves. Qed.
Print Assumptions C70_moves.

(** A cell of 30 by 40 that floats down, a text of width 6, and a second one that
    joins it. *)
Example C70_moves_case : exists t F q1 q2 q3 q4, document gw_id [] page_cfg t F /\ map (fun x => snd (fst x)) t = prog_move /\ Forall (fun x => snd x = None) t /\
  map (fun x => fst (fst x)) (skipn 3 t) = [q1; q2; q3; q4] /\
  u_x (g_cur q1) = fofz 10 /\ u_y (g_cur q1) = fofz 10 /\ u_x (g_cur q2) = fofz 10 /\ u_y (g_cur q2) = fofz 50 /\
  u_x (g_cur q3) = fofz 16 /\ u_y (g_cur q3) = fofz 50 /\ u_x (g_cur q4) = fofz 28 /\ u_y (g_cur q4) = fofz 50.
Proof. exact move_case. Qed.

(** ** C73: levels of compression *)

(** The contents of the pages are packed at the level of the last SetCompressLevel
    before saving. Missing: levels above 9. *)
Theorem C73_level_partial : forall w rnd cfg t F key, document w rnd cfg t F -> blen F < 10 ^ 10 -> finite (cfg_w cfg) -> finite (cfg_h cfg) ->
  Forall drawn_page (pages_of t) -> 0 <= cfg_perm cfg < 256 -> (forall i, info_of t = Some i -> simple_info i) -> opens F (cfg_user cfg) key ->
  (forall x n, In x t -> snd (fst x) = CompressLevel n -> n <= 9) ->
  exists kids, root_is F (cfg_w cfg, cfg_h cfg) kids /\ NoDup kids /\
    Forall2 (fun k p => exists c s, page_is F k (cfg_w cfg, cfg_h cfg) (asked cfg (fst p)) c /\ packed w (level_of t) key F c s /\
      (texts_ok (snd p) -> Forall sound_op (wanted w (snd (asked cfg (fst p))) (snd p)) ->
       exists ops, operators s ops /\ Forall2 fit_op (wanted w (snd (asked cfg (fst p))) (snd p)) ops)) kids (pages_of t).
Proof. exact doc_levels. Qed.
Print Assumptions C73_level_partial.

(** The last of several levels counts; one below -2 means the default, and with
    level 0 there is no filter. *)
Example C73_case : (exists t F, document gw_level [] page_cfg t F /\ map (fun x => snd (fst x)) t = prog_level [3; 0] /\ level_of t = 0 /\ packed gw_level 0 None F 5 stroke) /\
  (exists t F, document gw_level [] page_cfg t F /\ map (fun x => snd (fst x)) t = prog_level [3; 0; 9] /\ level_of t = 9 /\ packed gw_level 9 None F 5 stroke) /\
  (exists t F, document gw_level [] page_cfg t F /\ map (fun x => snd (fst x)) t = prog_level [3; -7] /\ level_of t = -1 /\ packed gw_level (-1) None F 5 stroke).
Proof. exact level_cases. Qed.

(** For a level above 9 the program prints that it uses the best one, but keeps
    the level it had. *)
Theorem C73_big_refuted : exists w rnd cfg t F c, document w rnd cfg t F /\ map (fun x => snd (fst x)) t = prog_level [10] /\ Forall (fun x => snd x = None) t /\
  page_is F 4 (cfg_w cfg, cfg_h cfg) (cfg_w cfg, cfg_h cfg) c /\ level_of t = 9 /\ packed w (-1) None F c stroke /\ forall s, ~ packed w (level_of t) None F c s.
Proof. exact level_ten. Qed.
Print Assumptions C73_big_refuted.
