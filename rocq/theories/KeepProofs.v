(** What a save leaves as it was (C81). *)
From Coq Require Import String List ZArith Lia Bool.
From Coq.Floats Require Import SpecFloat.
From Verif Require Import Base BaseProofs Output OutputSpec Props PropsSpec PdfData PagesSpec Inject InjectSpec PagesEdit ImgFinal InjectVisits InjectCheck PagesProofs FontChainSpec Crawl ContentSpec ImgSpec Float64 Parse Crypto Api ApiCases SaveSpec SaveDoc SaveWhole SaveLockSpec SaveLock SaveDrawSpec SaveDrawn SaveCheck SaveCases SaveBareCases.
Open Scope Z_scope.
Open Scope list_scope.

Theorem kept_from_calls : forall w fuel ch cs log s s' F rid ts fi xi srcs pw,
  history w fuel cs new_pdft = Ok (s, log) -> saveTo w fuel ch s = Ok (s', Ok F) -> fair (ch_ord ch) -> protected_by s pw ->
  ready_document (d_pdf (s_doc s)) rid ts fi xi ->
  Forall2 (source (w_inflate w) (objs (d_pdf (s_doc s)))) (flat_map leaves ts) srcs ->
  (forall c, In c (content_ids srcs) -> ~ In c (root (d_pdf (s_doc s)) :: rid :: flat_map tree_ids ts) /\ ~ page_object (flat_map leaves ts) fi c) ->
  (depth (Node rid ts) <= fuel)%nat -> 0 <= root (d_pdf (s_doc s)) -> blen F < 10 ^ 10 ->
  exists p', file_holds F p' pw /\
    (forall j ps, In j (root (d_pdf (s_doc s)) :: rid :: flat_map tree_ids ts) -> dict (objs (d_pdf (s_doc s))) j ps -> exists ps', dict (objs p') j ps' /\ with_resources ps ps') /\
    (forall j o, version (objs (d_pdf (s_doc s))) j o -> ~ page_object (flat_map leaves ts) fi j -> ~ In j (content_ids srcs) ->
       ~ In j (root (d_pdf (s_doc s)) :: rid :: flat_map tree_ids ts) \/ (exists L, In L (flat_map leaves ts) /\ match xi L with NoRes | ResAt _ _ NoFont => False | _ => True end) ->
       version (objs p') j o).
Proof.
  intros w fuel ch cs log s s' F rid ts fi xi srcs pw Hh Hs Fr Pr OR Sr Ap Dp Rt Sm.
  destruct (saved_either _ _ _ _ _ _ _ _ _ _ _ _ _ _ Hh Hs Fr Pr OR Sr Ap Dp Rt Sm) as (p' & ins & Fo & D). exists p'. split; [exact Fo|].
  pose proof (sd_root _ _ _ _ _ _ _ _ _ _ D) as Er. split.
  - intros j ps Hj Hd. apply (sd_nodes _ _ _ _ _ _ _ _ _ _ D j ps); [rewrite Er; exact Hj|exact Hd].
  - intros j o Hv Np Nc Hc. apply (sd_frame _ _ _ _ _ _ _ _ _ _ D j o Hv Np).
    + intros k t (_ & Hk & _). apply Nc. unfold content_ids. apply in_flat_map. exists (Some (j, t)). split; [exact (nth_error_In _ _ Hk)|left; reflexivity].
    + intros None_. rewrite Er. destruct Hc as [Hc|(L & HL & Hx)]; [exact Hc|]. exfalso. specialize (None_ L HL). destruct (xi L) as [|? [| |]|? ? [| |]]; contradiction.
Qed.

(** ** Nothing inserted *)
Definition doc_in (cs : list call) : list obj := match after cs with Ok s => objs (d_pdf (s_doc s)) | _ => [] end.
Definition bare_file : bytes := toStream bare_objs 9 1 None.
Definition bare_saved : bytes := match saves false [KOpen bare_file] with Ok F => F | _ => [] end.

Lemma bare_opens : exists s s2, after [KOpen bare_file] = Ok s /\ saves false [KOpen bare_file] = Ok bare_saved /\ after [KOpen bare_saved] = Ok s2 /\
  objs (d_pdf (s_doc s)) = doc_in [KOpen bare_file] /\ objs (d_pdf (s_doc s2)) = doc_in [KOpen bare_saved] /\ root (d_pdf (s_doc s)) = 1 /\ root (d_pdf (s_doc s2)) = 1.
Proof. eexists. eexists. repeat (split; [vm_compute; reflexivity|]). vm_compute; reflexivity. Qed.

Ltac object_it n :=
  match goal with |- the_object ?os _ _ => exists (firstn n os), (skipn (Datatypes.S n) os); split; [vm_compute; reflexivity|]; split; [reflexivity|];
    let q := fresh in let H := fresh in intros q H; vm_compute in H; repeat (destruct H as [<-|H]; [vm_compute; discriminate|]); destruct H end.

(** The catalog gets an entry. *)
Lemma catalog_case : exists o o2 ps ps2, the_object (doc_in [KOpen bare_file]) 1 o /\ entries o ps /\ ~ has_key ps (B"XObject") /\
  the_object (doc_in [KOpen bare_saved]) 1 o2 /\ entries o2 ps2 /\ has_key ps2 (B"XObject").
Proof.
  exists (nth 0 (doc_in [KOpen bare_file]) (mkObj 0 [])), (nth 0 (doc_in [KOpen bare_saved]) (mkObj 0 [])). eexists. eexists.
  split; [object_it 0%nat|]. split; [vm_compute; reflexivity|]. split.
  - intros (v & H). repeat (destruct H as [H|H]; [discriminate|]). destruct H.
  - split; [object_it 0%nat|]. split; [vm_compute; reflexivity|]. exists (B"<<>>"). do 3 right. left. reflexivity.
Qed.

(** The resource object of the two pages gets its entries twice. *)
Lemma doubled_case : exists o o2 ps ps2, the_object (doc_in [KOpen bare_file]) 7 o /\ entries o ps /\ NoDup (map pkey ps) /\
  the_object (doc_in [KOpen bare_saved]) 7 o2 /\ entries o2 ps2 /\ ~ NoDup (map pkey ps2).
Proof.
  exists (nth 6 (doc_in [KOpen bare_file]) (mkObj 0 [])), (nth 6 (doc_in [KOpen bare_saved]) (mkObj 0 [])). eexists. eexists.
  split; [object_it 6%nat|]. split; [vm_compute; reflexivity|]. split.
  - cbn [map pkey]. constructor; [intros [H|[]]; discriminate|]. constructor; [intros []|constructor].
  - split; [object_it 6%nat|]. split; [vm_compute; reflexivity|]. cbn [map pkey]. intros N. inversion N as [|x l Nx _]. apply Nx. right. left. reflexivity.
Qed.

(** The first page gets a line style, again with each save. *)
Lemma first_page_case : exists F2 o o2 o3, saves false [KOpen bare_saved] = Ok F2 /\
  the_object (doc_in [KOpen bare_file]) 4 o /\ the_object (doc_in [KOpen bare_saved]) 4 o2 /\ the_object (doc_in [KOpen F2]) 4 o3 /\
  blen (odata o2) = blen (odata o) + 16 /\ blen (odata o3) = blen (odata o2) + 15.
Proof.
  exists (match saves false [KOpen bare_saved] with Ok F => F | _ => [] end).
  exists (nth 3 (doc_in [KOpen bare_file]) (mkObj 0 [])), (nth 3 (doc_in [KOpen bare_saved]) (mkObj 0 [])), (nth 3 (doc_in [KOpen (match saves false [KOpen bare_saved] with Ok F => F | _ => [] end)]) (mkObj 0 [])).
  split; [vm_compute; reflexivity|]. split; [object_it 3%nat|]. split; [object_it 3%nat|]. split; [object_it 3%nat|]. split; vm_compute; reflexivity.
Qed.

(** Resources and images in the pages; a text and an image were inserted. *)
Lemma after_history : forall cs s, after cs = Ok s -> exists log, history plain_world 5 cs new_pdft = Ok (s, log).
Proof. intros cs s H. unfold after in H. destruct (history plain_world 5 cs new_pdft) as [(s0, log)| | |]; try discriminate. exists log. cbn in H. congruence. Qed.
Lemma inside_catalog : exists o, the_object (objs inside_doc) 1 o /\ version (objs inside_doc) 1 o /\ root inside_doc = 1.
Proof.
  exists (nth 0 (objs inside_doc) (mkObj 0 [])). split; [object_it 0%nat|]. split; [|vm_compute; reflexivity]. apply get_version. vm_compute. reflexivity.
Qed.
Lemma inside_image : exists o, odata o = [10] ++ B"<</Type/XObject/Subtype/Image>>" ++ [10] /\ version (objs inside_doc) 9 o.
Proof. exists (nth 8 (objs inside_doc) (mkObj 0 [])). split; [vm_compute; reflexivity|]. apply get_version. vm_compute. reflexivity. Qed.
Lemma inside_pages : forall j, In j [1; 9] -> ~ page_object [3; 5] (fonts_in (objs inside_doc)) j /\ ~ In j [4; 6].
Proof.
  assert (X : forall L, In L [3; 5] -> page_objects L (fonts_in (objs inside_doc) L) = [L]) by (intros L [<-|[<-|[]]]; vm_compute; reflexivity).
  intros j Hj. split.
  - intros (L & HL & H). rewrite (X L HL) in H. destruct H as [<-|[]]. destruct HL as [<-|[<-|[]]]; destruct Hj as [?|[?|[]]]; discriminate.
  - destruct Hj as [<-|[<-|[]]]; intros [?|[?|[]]]; discriminate.
Qed.
Lemma inside_three : exists ps, dict (objs inside_doc) 3 ps /\ value ps (B"MediaBox") (B"[0 0 50 100]").
Proof.
  exists (props_of (objs inside_doc) 3). split; [|apply value_iff; vm_compute; reflexivity].
  assert (E : extendable (objs inside_doc) 3 (props_of (objs inside_doc) 3)) by (apply extendb_is; [vm_compute; discriminate|vm_compute; reflexivity|vm_compute; reflexivity]). apply E.
Qed.
Lemma inside_has : exists L, In L [3; 5] /\ match images_in (objs inside_doc) L with NoRes | ResAt _ _ NoFont => False | _ => True end.
Proof. exists 3. split; [left; reflexivity|]. vm_compute. exact Logic.I. Qed.
Lemma kept_case : exists s s' F p' o1 o9 ps, after inside_calls = Ok s /\ saveTo plain_world 5 (plain_choices false) s = Ok (s', Ok F) /\ file_of F p' /\
  version (objs (d_pdf (s_doc s))) 1 o1 /\ version (objs p') 1 o1 /\
  odata o9 = [10] ++ B"<</Type/XObject/Subtype/Image>>" ++ [10] /\ version (objs p') 9 o9 /\
  dict (objs p') 3 ps /\ value ps (B"MediaBox") (B"[0 0 50 100]").
Proof.
  destruct inside_run as (s & s' & F & f & i & Af & Sv & Ed & Pr & _ & Sz & _). apply Z.ltb_lt in Sz. destruct (after_history _ _ Af) as (log & Hh).
  assert (Fr : fair (ch_ord (plain_choices false))) by (intros k A l; apply Permutation.Permutation_refl).
  assert (R0 : 0 <= root inside_doc) by (vm_compute; discriminate).
  pose proof inside_ready as RD. pose proof inside_sources as Sr. pose proof inside_apart as Ap. pose proof inside_catalog as (o1 & _ & V1 & _). pose proof inside_image as (o9 & D9 & V9).
  pose proof inside_pages as Pg. pose proof inside_three as (ps & D3 & Mb). pose proof inside_has as Has.
  rewrite <- Ed in RD, Sr, Ap, R0, V1, V9, Pg, D3, Has.
  assert (Dp : (depth (Node 2 leaves35) <= 5)%nat) by (cbn; lia).
  destruct (kept_from_calls plain_world 5 (plain_choices false) inside_calls log s s' F 2 leaves35 _ _ shared_srcs None Hh Sv Fr Pr RD Sr Ap Dp R0 Sz) as (p' & Fo & Nd & Fm).
  destruct (Nd 3 ps (or_intror (or_intror (or_introl eq_refl))) D3) as (ps' & D' & Kp & _). assert (Nk : B"MediaBox" <> B"Resources") by discriminate.
  exists s, s', F, p', o1, o9, ps'. split; [exact Af|]. split; [exact Sv|]. split; [exact Fo|]. split; [exact V1|].
  split; [apply (Fm 1 o1 V1 (proj1 (Pg 1 (or_introl eq_refl))) (proj2 (Pg 1 (or_introl eq_refl)))); right; exact Has|]. split; [exact D9|].
  split; [apply (Fm 9 o9 V9 (proj1 (Pg 9 (or_intror (or_introl eq_refl)))) (proj2 (Pg 9 (or_intror (or_introl eq_refl))))); right; exact Has|].
  split; [exact D'|apply (Kp _ _ Nk Mb)].
Qed.

(** ** Opening, saving and opening again *)
Definition reopened (F F' : bytes) (s s2 : state) : Prop := after [KOpen F] = Ok s /\ saves false [KOpen F] = Ok F' /\ after [KOpen F'] = Ok s2.
Lemma catalog_changed : exists F F' s s2 o o2 ps ps2, reopened F F' s s2 /\
  the_object (objs (d_pdf (s_doc s))) (root (d_pdf (s_doc s))) o /\ entries o ps /\ ~ has_key ps (B"XObject") /\
  the_object (objs (d_pdf (s_doc s2))) (root (d_pdf (s_doc s2))) o2 /\ entries o2 ps2 /\ has_key ps2 (B"XObject").
Proof.
  destruct bare_opens as (s & s2 & A & S1 & A2 & E & E2 & R & R2). pose proof catalog_case as (o & o2 & ps & ps2 & H). exists bare_file, bare_saved, s, s2, o, o2, ps, ps2.
  rewrite E, E2, R, R2. split; [split; [exact A|split; [exact S1|exact A2]]|exact H].
Qed.
Lemma keys_doubled : exists F F' s s2 j o o2 ps ps2, reopened F F' s s2 /\
  the_object (objs (d_pdf (s_doc s))) j o /\ entries o ps /\ NoDup (map pkey ps) /\
  the_object (objs (d_pdf (s_doc s2))) j o2 /\ entries o2 ps2 /\ ~ NoDup (map pkey ps2).
Proof.
  destruct bare_opens as (s & s2 & A & S1 & A2 & E & E2 & R & R2). pose proof doubled_case as (o & o2 & ps & ps2 & H). exists bare_file, bare_saved, s, s2, 7, o, o2, ps, ps2.
  rewrite E, E2. split; [split; [exact A|split; [exact S1|exact A2]]|exact H].
Qed.
Lemma page_grows : exists F F' F2 s s2 s3 j o o2 o3, reopened F F' s s2 /\ reopened F' F2 s2 s3 /\
  the_object (objs (d_pdf (s_doc s))) j o /\ the_object (objs (d_pdf (s_doc s2))) j o2 /\ the_object (objs (d_pdf (s_doc s3))) j o3 /\
  blen (odata o) < blen (odata o2) < blen (odata o3).
Proof.
  destruct bare_opens as (s & s2 & A & S1 & A2 & E & E2 & R & R2). pose proof first_page_case as (F2 & o & o2 & o3 & S2 & H1 & H2 & H3 & L2 & L3).
  assert (A3 : exists s3, after [KOpen F2] = Ok s3).
  { unfold doc_in in H3. destruct (after [KOpen F2]) as [s3| | |]; [exists s3; reflexivity|..]; destruct H3 as ([|? ?] & ? & X & _); discriminate X. }
  destruct A3 as (s3 & A3). assert (E3 : objs (d_pdf (s_doc s3)) = doc_in [KOpen F2]) by (unfold doc_in; rewrite A3; reflexivity).
  exists bare_file, bare_saved, F2, s, s2, s3, 4, o, o2, o3. rewrite E, E2, E3.
  split; [split; [exact A|split; [exact S1|exact A2]]|]. split; [split; [exact A2|split; [exact S2|exact A3]]|]. split; [exact H1|]. split; [exact H2|]. split; [exact H3|]. lia.
Qed.
