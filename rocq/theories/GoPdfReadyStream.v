(** The content streams that GoPdf writes, read by pdft. *)
From Coq Require Import String List ZArith Lia Bool.
From Coq.Floats Require Import SpecFloat.
From Verif Require Import Base BaseProofs Output OutputSpec OutputProofs Props PropsFlat PropsWrite PropsNorm PropsRefs PropsRead PropsSpec PropsFinal PagesEdit PdfData PagesSpec ContentSpec Float64 Parse ParseFind ParseFile ParseTrailer ParseProofs Text GoPdf GoPdfOpenDict GoPdfReadyDict.
Open Scope Z_scope.
Open Scope list_scope.

(** ** Dictionary *)

Definition stream_ents (flate : bool) (n : Z) : list ent :=
  (if flate then [mkEnt false (B"Filter") []; mkEnt false (B"FlateDecode") []] else []) ++ [mkEnt true (B"Length") (itoa n)].
Definition stream_head (flate : bool) (n : Z) : bytes :=
  [10] ++ B"<<" ++ [10] ++ ((if flate then B"/Filter/FlateDecode" else []) ++ B"/Length " ++ itoa n) ++ [10] ++ B">>" ++ [10].
Lemma head_no : forall (flate : bool) n, ~ In 115 ([10] ++ ((if flate then B"/Filter/FlateDecode" else []) ++ B"/Length " ++ itoa n) ++ [10]).
Proof.
  intros flate n. assert (F : Forall (fun c => c <> 115) ([10] ++ ((if flate then B"/Filter/FlateDecode" else []) ++ B"/Length " ++ itoa n) ++ [10])).
  { assert (L : forall s, forallb (fun c => negb (c =? 115)) s = true -> Forall (fun c => c <> 115) s) by (intros s H; apply Forall_forall; intros c Hc; rewrite forallb_forall in H; apply H in Hc; lia).
    apply Forall_app. split; [apply L; reflexivity|]. apply Forall_app. split; [|apply L; reflexivity]. apply Forall_app. split; [destruct flate; apply L; reflexivity|].
    apply Forall_app. split; [apply L; reflexivity|]. eapply Forall_impl; [|apply itoa_chars]. intros c H. unfold num_char in H. lia. }
  intros O. rewrite Forall_forall in F. exact (F _ O eq_refl).
Qed.
Lemma head_no2 : forall flate n, ~ In 115 (stream_head flate n).
Proof.
  intros flate n O. unfold stream_head in O. apply in_app_or in O. destruct O as [O|O]; [cbn in O; lia|]. apply in_app_or in O. destruct O as [O|O]; [vm_compute in O; lia|].
  rewrite !app_assoc in O. apply in_app_or in O. destruct O as [O|O]; [|cbn in O; lia]. apply in_app_or in O. destruct O as [O|O]; [|vm_compute in O; lia].
  rewrite <- !app_assoc in O. apply (head_no flate n). rewrite <- !app_assoc. exact O.
Qed.
Lemma head_reads : forall flate n rest, rest = [] \/ (exists r, rest = B"stream" ++ r) -> readProperties (stream_head flate n ++ rest) = Ok (map ent_prop (stream_ents flate n)).
Proof.
  intros flate n rest R. unfold stream_head. pose proof (itoa_chars n) as Ic. apply read_before; [reflexivity|reflexivity| |apply head_no| | | |exact R].
  - destruct (itoa n) as [|x s _] eqn:E using rev_ind; [now apply itoa_nonnil in E|]. apply Forall_app in Ic. destruct Ic as (_ & Ix). inversion Ix as [|? ? Nx _]; subst.
    destruct flate.
    + change ((B"/Filter/FlateDecode" ++ B"/Length " ++ s ++ [x])) with (47 :: (B"Filter/FlateDecode/Length " ++ s ++ [x])). rewrite app_assoc. apply trimmed_ascii; unfold num_char, ascii, is_space1 in *; lia.
    + change (([] ++ B"/Length " ++ s ++ [x])) with (47 :: (B"Length " ++ s ++ [x])). rewrite app_assoc. apply trimmed_ascii; unfold num_char, ascii, is_space1 in *; lia.
  - assert (X : norm (B"/Length " ++ itoa n) = B"/Length " ++ itoa n).
    { change (B"/Length " ++ itoa n) with (B"/Length" ++ 32 :: itoa n). rewrite <- (app_nil_r (itoa n)) at 1. rewrite norm_entry by lit_nows. rewrite app_nil_r. reflexivity. }
    destruct flate; cbn [app stream_ents].
    + rewrite norm_word by lit_nows. rewrite X. unfold rend, rend1. cbn [flat_map efl ekey eval]. rewrite !app_nil_r. reflexivity.
    + rewrite X. unfold rend, rend1. cbn [flat_map efl ekey eval]. rewrite !app_nil_r. reflexivity.
  - assert (L : ent_ascii (mkEnt true (B"Length") (itoa n))) by (split; [apply key_lit; reflexivity|split; [apply word_asc, itoa_word|intros E; discriminate E]]).
    destruct flate; unfold stream_ents; cbn [app]; repeat (constructor; [first [exact L|apply ent_empty; reflexivity]|]); constructor.
  - assert (L : run_ok [mkEnt true (B"Length") (itoa n)]) by (apply ro_cons; [right; apply num_run; cbn [eval]; apply itoa_ref_char|apply ro_nil]).
    destruct flate; unfold stream_ents; cbn [app]; [|exact L]. apply ro_cons; [right; reflexivity|]. apply ro_cons; [right; reflexivity|exact L].
Qed.

(** ** Streams *)

Lemma content_source : forall w inflate level id s b st os, content_build w level None id [] s = Ok (b, st) -> blen b < 2 ^ 62 ->
  (level <> 0 -> inflate (gw_deflate w level s) = Ok s /\ plain_start (gw_deflate w level s)) -> plain_start s ->
  exists ps raw, stream_text os ([10] ++ b) ps raw /\ plain_start raw /\ decodes inflate ps raw s.
Proof.
  intros w inflate level id s b st os H Hs Hd Hp. unfold content_build in H. cbn [app enc_stream bind] in H. set (flate := negb (level =? 0)) in *.
  set (d := if flate then gw_deflate w level s else s) in *. injection H as Hb _.
  assert (E : [10] ++ b = stream_head flate (blen d) ++ B"stream" ++ [10] ++ d ++ (if flate then [10] else []) ++ B"endstream" ++ [10]).
  { rewrite <- Hb. unfold stream_head. rewrite <- !app_assoc. reflexivity. }
  assert (Ld : 0 <= blen d < 2 ^ 62).
  { split; [apply blen_nonneg|]. assert (Y : blen ([10] ++ b) = 1 + blen b) by (rewrite blen_app; reflexivity). rewrite E in Y. rewrite !blen_app in Y.
    change (blen (B"stream")) with 6 in Y. clear Hb E Hd. clearbody d flate.
    match type of Y with ?a1 + (6 + (?a2 + (?a3 + (?a4 + (?a5 + ?a6))))) = _ => assert (0 <= a1) by apply blen_nonneg; assert (0 <= a2) by apply blen_nonneg;
      assert (0 <= a4) by apply blen_nonneg; assert (0 <= a5) by apply blen_nonneg; assert (0 <= a6) by apply blen_nonneg; change (a3 < 2 ^ 62); generalize dependent a1; generalize dependent a4; intros end. lia. }
  exists (map ent_prop (stream_ents flate (blen d))), d. split; [|split].
  - eexists (stream_head flate (blen d)), [10], (if flate then [10] else []), [10]. split; [exact E|]. split; [|split; [left; reflexivity|split; [reflexivity|split]]].
    + right. eexists. split; [exact E|]. intros a c Ea. destruct (Nat.le_gt_cases (List.length (stream_head flate (blen d))) (List.length a)) as [L|L]; [exact L|exfalso].
      assert (O : nth_error (stream_head flate (blen d)) (List.length a) = Some 115).
      { rewrite E in Ea. assert (X : nth_error (stream_head flate (blen d) ++ B"stream" ++ [10] ++ d ++ (if flate then [10] else []) ++ B"endstream" ++ [10]) (List.length a) = Some 115).
        { rewrite Ea, nth_error_app2, Nat.sub_diag by lia. reflexivity. }
        rewrite nth_error_app1 in X by exact L. exact X. }
      apply nth_error_In in O. apply head_no2 in O. exact O.
    + rewrite E. apply head_reads. right. eexists. reflexivity.
    + eapply (dec_direct _ _ _ (itoa (blen d))).
      * exists (map ent_prop (if flate then [mkEnt false (B"Filter") []; mkEnt false (B"FlateDecode") []] else [])), []. split; [unfold stream_ents; rewrite map_app; reflexivity|].
        intros q Hq. destruct flate; cbn [map In] in Hq; [destruct Hq as [<-|[<-|[]]]; discriminate|contradiction].
      * apply atoi_trim_itoa. unfold in_int, int64_min, int64_max. lia.
  - unfold d, flate. destruct (Z.eqb_spec level 0) as [L|L]; cbn [negb]; [exact Hp|apply Hd; exact L].
  - unfold d, flate. destruct (Z.eqb_spec level 0) as [L|L]; cbn [negb].
    + apply dec_plain; intros (v & X); unfold stream_ents in X; cbn [app map In] in X; destruct X as [X|[]]; discriminate X.
    + apply dec_flate; [eexists; left; reflexivity|eexists; right; left; reflexivity|apply Hd; exact L].
Qed.

(** ** How contents begin *)

Definition begins (s : bytes) : Prop := exists c r, s = c :: r /\ (43 <= c <= 46 \/ 48 <= c <= 57 \/ 65 <= c <= 91 \/ 97 <= c <= 122).
Lemma begins_plain : forall s, begins s -> plain_start s.
Proof. intros s (c & r & -> & H). cbn [plain_start]. lia. Qed.
Lemma begins_app : forall a c, begins a -> begins (a ++ c).
Proof. intros a c (x & r & -> & H). exists x, (r ++ c). auto. Qed.
Lemma begins_fmt : forall x, begins (fmt2 x).
Proof. intros x. destruct (fmt_chars x) as (C & N). destruct (fmt2 x) as [|c r]; [congruence|]. inversion C as [|? ? Hc _]; subst. exists c, r. split; [reflexivity|]. unfold wordc in Hc. lia. Qed.
Lemma begins_lit : forall c r, (65 <=? c) && (c <=? 91) || (97 <=? c) && (c <=? 122) = true -> begins (c :: r).
Proof. intros c r H. exists c, r. split; [reflexivity|]. lia. Qed.
Lemma cache_begins : forall fs c s, cache_stream fs c = Ok s -> begins s.
Proof.
  intros fs c s H. destruct c as [c|h x1 y1 x2 y2|h x y w hh style|h x1 y1 x2 y2|h x0 y0 x1 y1 x2 y2 x3 y3 style|w|t|stroke scale|stroke ((r, g), bl)|i x y h rect]; cbn [cache_stream] in H.
  - destruct (nth_error fs (x_font c)); [|discriminate]. injection H as <-. apply begins_app. apply begins_lit. reflexivity.
  - injection H as <-. apply begins_app, begins_fmt.
  - injection H as <-. apply begins_app, begins_fmt.
  - injection H as <-. unfold oval_cache. cbv zeta. repeat first [apply begins_fmt|apply begins_app].
  - injection H as <-. apply begins_app, begins_fmt.
  - injection H as <-. apply begins_app, begins_fmt.
  - injection H as <-. unfold type_cache. apply begins_app. destruct (beqb t (B"dashed")); [apply begins_lit; reflexivity|]. destruct (beqb t (B"dotted")); apply begins_lit; reflexivity.
  - injection H as <-. apply begins_app, begins_fmt.
  - injection H as <-. apply begins_app, begins_fmt.
  - injection H as <-. unfold image_cache, img_stream. apply begins_app. apply begins_lit. reflexivity.
Qed.
Lemma caches_begin : forall fs cs s, caches_stream fs cs = Ok s -> plain_start s.
Proof.
  intros fs [|c cs] s H; cbn [caches_stream] in H; [injection H as <-; exact Logic.I|].
  destruct (cache_stream fs c) as [a| | |] eqn:E; cbn [bind] in H; try discriminate. destruct (caches_stream fs cs); cbn [bind] in H; try discriminate. injection H as <-.
  apply begins_plain, begins_app. eapply cache_begins; eauto.
Qed.
