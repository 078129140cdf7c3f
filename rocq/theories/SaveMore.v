(** From InsertImgBase64, InsertImgWithCache and InsertWrapText to the file (C72). *)
From Coq Require Import String List ZArith Lia Bool Reals Lra.
From Coq.Floats Require Import SpecFloat.
From Verif Require Import Base BaseProofs Output OutputSpec Props PropsSpec PdfData PagesSpec Inject InjectSpec Crawl ContentSpec ImgSpec Utf8 Float64 FloatReal Ttf TtfSpec TtfProofs CharMap Subset Text TextSpec TextPlaceSpec TextCases TextFinal TextPlace TextPlaced TextCases2 Wrap WrapProofs FontObjects FontChainSpec FontChain
  Parse Png Md5Rc4 Crypto Api ApiSpec ApiProofs ApiIds ApiFrames ApiImages ApiMore SaveSpec SaveDoc SaveWhole SaveLockSpec SaveLock SaveDrawSpec SaveDraws SaveCalls SaveDrawn SaveWrapSpec PlaceCases.
Open Scope Z_scope.
Open Scope list_scope.

(** ** Images that are there *)
Lemma image_in_file : forall w fuel ch cs1 s2 log1 n id pg x y wd h ph data cs2 log2 s s' F rid ts fi xi srcs pw,
  history w fuel cs1 new_pdft = Ok (s2, log1) -> nth_error (s_cont s2) n = Some (CImg id pg x y wd h ph) -> nth_error (map im_data (s_imgs s2)) id = Some data ->
  history w fuel cs2 s2 = Ok (s, log2) ->
  saveTo w fuel ch s = Ok (s', Ok F) -> fair (ch_ord ch) -> protected_by s pw ->
  ready_document (d_pdf (s_doc s)) rid ts fi xi ->
  Forall2 (source (w_inflate w) (objs (d_pdf (s_doc s)))) (flat_map leaves ts) srcs ->
  (forall c, In c (content_ids srcs) -> ~ In c (root (d_pdf (s_doc s)) :: rid :: flat_map tree_ids ts) /\ ~ page_object (flat_map leaves ts) fi c) ->
  (depth (Node rid ts) <= fuel)%nat -> 0 <= root (d_pdf (s_doc s)) -> blen F < 10 ^ 10 ->
  on_paper x -> on_paper y -> on_paper wd -> on_paper h -> on_paper ph ->
  exists p' ins ops, file_holds F p' pw /\ saved_document w s s' rid ts fi xi srcs p' ins /\
    forall pid cid old, own_page ts srcs pg pid cid old -> pictured (flat_map leaves ts) xi pid -> drawn_on (objs p') pid cid old ops /\
      exists xps', page_images (objs p') pid xps' /\ shows_image (objs p') xps' data (val x) (val y) (val wd) (val h) (val ph) ops.
Proof.
  intros w fuel ch cs1 s2 log1 n id pg x y wd h ph data cs2 log2 s s' F rid ts fi xi srcs pw H1 Hc Hd H2 Hs Fr Pr OR Sr Ap Dp Rt Sm Px Py Pw Ph Pp.
  pose proof (history_join w fuel cs1 cs2 new_pdft s2 log1 s log2 H1 H2) as Hh.
  pose proof (history_grown _ _ _ _ _ _ H2) as G. destruct (gr_cont _ _ G) as (more & Em). destruct (gr_imgs _ _ G) as (mi & Ed).
  assert (Hc2 : nth_error (s_cont s) n = Some (CImg id pg x y wd h ph)).
  { rewrite Em, nth_error_app1; [exact Hc|]. apply nth_error_Some. congruence. }
  assert (Hi : exists i, nth_error (s_imgs s) id = Some i /\ im_data i = data).
  { assert (X : nth_error (map im_data (s_imgs s)) id = Some data) by (rewrite Ed, nth_error_app1; [exact Hd|apply nth_error_Some; congruence]).
    rewrite nth_error_map in X. destruct (nth_error (s_imgs s) id) as [i|]; [|discriminate]. exists i. split; [reflexivity|]. cbn [option_map] in X. congruence. }
  destruct Hi as (i & Hi & Di). subst data.
  destruct (saved_either _ _ _ _ _ _ _ _ _ _ _ _ _ _ Hh Hs Fr Pr OR Sr Ap Dp Rt Sm) as (p' & ins & Fo & D).
  destruct (image_shown w fuel ch s s' F rid ts fi xi srcs p' ins Hs Fr D _ _ _ _ _ _ _ _ _ Hc2 Hi Pw Ph Px Py Pp) as (ops & Hn & Sh).
  exists p', ins, ops. split; [exact Fo|]. split; [exact D|].
  intros pid cid old Ow Pc. split; [exact (part_drawn _ _ _ _ _ _ _ _ _ _ _ _ _ _ _ _ D Hn Ow)|]. apply Sh; [|exact Pc]. destruct Ow as (_ & HL & _). exact (nth_error_In _ _ HL).
Qed.

(** ** The cache *)
(** Every image the cache knows was made from bytes with that sum, handed over in
    an earlier call. *)
Definition cache_from (w : world) (log : list entry) (s : state) : Prop :=
  forall c key id, s_cache s = Some c -> In (key, id) c ->
    exists img data, In img (cached log) /\ md5 img = key /\ nth_error (map im_data (s_imgs s)) id = Some data /\ made w img data.

Lemma place_parts : forall id pg x y w h s s' e, place_image id pg x y w h s = Ok (s', e) ->
  e = None /\ exists ph, pageHeight s pg = Ok ph /\ s' = with_cont s (s_cont s ++ [CImg id pg x y w h ph]).
Proof. intros id pg x y w h s s' e H. unfold place_image in H. apply bind_ok in H as (ph & E & H). unfold ok in H. split; [congruence|]. exists ph. split; [exact E|congruence]. Qed.
Lemma new_parts : forall w b i s s', new_image w b i s = Ok (s', None) -> exists p data,
  insertImgObj (w_config w) (w_inflate w) (w_compress w) b (d_pdf (s_doc s)) i = Ok (p, data) /\ s' = with_imgs (with_pdf s p) (s_imgs s ++ [mkImage data [] 0]).
Proof.
  intros w b i s s' H. unfold new_image in H. destruct (insertImgObj _ _ _ _ _ _) as [[p data]| | |]; try discriminate. unfold ok in H. exists p, data. split; [reflexivity|congruence].
Qed.

Lemma cache_step : forall w fuel log c s s' e, cache_from w log s -> call_of w fuel c s = Ok (s', e) -> cache_from w (log ++ [(c, e)]) s'.
Proof.
  intros w fuel log c s s' e C H.
  assert (Sub : forall img, In img (cached log) -> In img (cached (log ++ [(c, e)]))) by (intros img X; unfold cached; rewrite flat_map_app; apply in_or_app; left; exact X).
  pose proof (call_grown _ _ _ _ _ _ H) as G.
  assert (Keep : s_cache s' = s_cache s \/ s_cache s' = Some [] \/ s_cache s' = None -> cache_from w (log ++ [(c, e)]) s').
  { intros K m key id Hm Hin. destruct K as [K|[K|K]].
    - rewrite K in Hm. destruct (C m key id Hm Hin) as (img & data & I1 & I2 & I3 & I4). exists img, data. split; [auto|]. split; [exact I2|]. split; [|exact I4].
      destruct (gr_imgs _ _ G) as (l & E). rewrite E, nth_error_app1; [exact I3|]. apply nth_error_Some. congruence.
    - assert (m = []) by congruence. subst. contradiction.
    - congruence. }
  destruct (about_images c) eqn:Ab; [|apply Keep; left; exact (if_cache _ _ (call_iframe _ _ _ _ _ _ Ab H))].
  destruct c; try discriminate; cbn [call_of] in H.
  - apply Keep. unfold openFrom in H. cbv zeta in H. destruct (PDFParse _ _ _ _) as (d, r). destruct r; try discriminate; unfold ok, fails in H; injection H as <- _; cbn; auto.
  - apply Keep. left. unfold insertImg in H. apply bind_ok in H as ([s1 [e1|]] & E & H); cbn [fst snd] in H; unfold new_image in E; destruct (insertImgObj _ _ _ _ _ _) as [[p data]| | |]; try discriminate; unfold ok, fails in *.
    + assert (s' = s) by congruence. congruence.
    + apply place_parts in H as (_ & ph & _ & ->). assert (s1 = with_imgs (with_pdf s p) (s_imgs s ++ [mkImage data [] 0])) by congruence. subst. reflexivity.
  - apply Keep. left. unfold insertImgBase64 in H. destruct (w_base64 w b64) as [img| | |]; try discriminate; [|unfold fails in H; congruence].
    unfold insertImg in H. apply bind_ok in H as ([s1 [e1|]] & E & H); cbn [fst snd] in H; unfold new_image in E; destruct (insertImgObj _ _ _ _ _ _) as [[p data]| | |]; try discriminate; unfold ok, fails in *.
    + assert (s' = s) by congruence. congruence.
    + apply place_parts in H as (_ & ph & _ & ->). assert (s1 = with_imgs (with_pdf s p) (s_imgs s ++ [mkImage data [] 0])) by congruence. subst. reflexivity.
  - destruct e as [e|]. { apply cache_error in H. subst. apply Keep. left. reflexivity. }
    unfold insertImgWithCache in H. cbv zeta in H. destruct (lookup _ _). { apply Keep. left. apply place_parts in H as (_ & ph & _ & ->). reflexivity. }
    apply bind_ok in H as ([s1 [e1|]] & E & H); cbn [fst snd] in H; [discriminate|]. apply new_parts in E as (p & data & E & ->). destruct (s_cache s) as [m0|] eqn:Em; [|discriminate].
    apply place_parts in H as (_ & ph & _ & ->). intros m key id Hm Hin. cbn [with_cont with_cache s_cache] in Hm. assert (m = m0 ++ [(md5 img, List.length (s_imgs s))]) by congruence. subst m.
    cbn [with_cont with_cache with_imgs s_imgs]. rewrite map_app. apply in_app_or in Hin. destruct Hin as [Hin|[Hin|[]]].
    + destruct (C m0 key id Em Hin) as (im & dt & I1 & I2 & I3 & I4). exists im, dt. split; [auto|]. split; [exact I2|]. split; [|exact I4]. rewrite nth_error_app1; [exact I3|]. apply nth_error_Some. congruence.
    + assert (key = md5 img) by congruence. assert (id = List.length (s_imgs s)) by congruence. subst. exists img, data. split; [rewrite cached_done; apply in_or_app; right; left; reflexivity|]. split; [reflexivity|]. split.
      * rewrite nth_error_app2 by (rewrite map_length; lia). rewrite map_length, Nat.sub_diag. reflexivity.
      * exists beyond, (d_pdf (s_doc s)), p. exact E.
Qed.
Lemma cache_history : forall w fuel cs s log, history w fuel cs new_pdft = Ok (s, log) -> cache_from w log s.
Proof.
  intros w fuel cs. induction cs as [|c cs IH] using rev_ind; intros s log H.
  - cbn in H. injection H as <- <-. intros m key id Hm Hin. discriminate Hm.
  - apply history_snoc in H as (s1 & l1 & e & H1 & C & ->). eapply cache_step; [eapply IH; exact H1|exact C].
Qed.

Theorem image64_from_calls : forall w fuel ch cs1 s1 log1 beyond b64 pg x y wd h s2 cs2 log2 s s' F rid ts fi xi srcs pw,
  history w fuel cs1 new_pdft = Ok (s1, log1) -> call_of w fuel (KImg64 beyond b64 pg x y wd h) s1 = Ok (s2, None) -> history w fuel cs2 s2 = Ok (s, log2) ->
  saveTo w fuel ch s = Ok (s', Ok F) -> fair (ch_ord ch) -> protected_by s pw ->
  ready_document (d_pdf (s_doc s)) rid ts fi xi ->
  Forall2 (source (w_inflate w) (objs (d_pdf (s_doc s)))) (flat_map leaves ts) srcs ->
  (forall c, In c (content_ids srcs) -> ~ In c (root (d_pdf (s_doc s)) :: rid :: flat_map tree_ids ts) /\ ~ page_object (flat_map leaves ts) fi c) ->
  (depth (Node rid ts) <= fuel)%nat -> 0 <= root (d_pdf (s_doc s)) -> blen F < 10 ^ 10 ->
  on_paper x -> on_paper y -> on_paper wd -> on_paper h -> (forall ph, pageHeight s1 pg = Ok ph -> on_paper ph) ->
  exists p' ins img data pc ph ops, file_holds F p' pw /\ saved_document w s s' rid ts fi xi srcs p' ins /\ w_base64 w b64 = Ok img /\
    insertImgObj (w_config w) (w_inflate w) (w_compress w) beyond (d_pdf (s_doc s1)) img = Ok (pc, data) /\ pageHeight s1 pg = Ok ph /\
    forall pid cid old, own_page ts srcs pg pid cid old -> pictured (flat_map leaves ts) xi pid -> drawn_on (objs p') pid cid old ops /\
      exists xps', page_images (objs p') pid xps' /\ shows_image (objs p') xps' data (val x) (val y) (val wd) (val h) (val ph) ops.
Proof.
  intros w fuel ch cs1 s1 log1 beyond b64 pg x y wd h s2 cs2 log2 s s' F rid ts fi xi srcs pw H1 Ca H2 Hs Fr Pr OR Sr Ap Dp Rt Sm Px Py Pw Ph Pp.
  cbn [call_of] in Ca. unfold insertImgBase64 in Ca. destruct (w_base64 w b64) as [img| | |] eqn:Eb; try discriminate.
  destruct (image_from_calls w fuel ch cs1 s1 log1 beyond img pg x y wd h s2 cs2 log2 s s' F rid ts fi xi srcs pw H1 Ca H2 Hs Fr Pr OR Sr Ap Dp Rt Sm Px Py Pw Ph Pp)
    as (p' & ins & data & pc & ph & ops & A1 & A2 & A3 & A4 & A5).
  exists p', ins, img, data, pc, ph, ops. auto 7.
Qed.

Theorem cached_from_calls : forall w fuel ch cs1 s1 log1 beyond img pg x y wd h s2 cs2 log2 s s' F rid ts fi xi srcs pw,
  history w fuel cs1 new_pdft = Ok (s1, log1) -> call_of w fuel (KImgCache beyond img pg x y wd h) s1 = Ok (s2, None) -> history w fuel cs2 s2 = Ok (s, log2) ->
  saveTo w fuel ch s = Ok (s', Ok F) -> fair (ch_ord ch) -> protected_by s pw ->
  ready_document (d_pdf (s_doc s)) rid ts fi xi ->
  Forall2 (source (w_inflate w) (objs (d_pdf (s_doc s)))) (flat_map leaves ts) srcs ->
  (forall c, In c (content_ids srcs) -> ~ In c (root (d_pdf (s_doc s)) :: rid :: flat_map tree_ids ts) /\ ~ page_object (flat_map leaves ts) fi c) ->
  (depth (Node rid ts) <= fuel)%nat -> 0 <= root (d_pdf (s_doc s)) -> blen F < 10 ^ 10 ->
  on_paper x -> on_paper y -> on_paper wd -> on_paper h -> (forall ph, pageHeight s1 pg = Ok ph -> on_paper ph) ->
  exists p' ins img' data ph ops, file_holds F p' pw /\ saved_document w s s' rid ts fi xi srcs p' ins /\
    (img' = img \/ In img' (cached log1)) /\ md5 img' = md5 img /\ made w img' data /\ pageHeight s1 pg = Ok ph /\
    forall pid cid old, own_page ts srcs pg pid cid old -> pictured (flat_map leaves ts) xi pid -> drawn_on (objs p') pid cid old ops /\
      exists xps', page_images (objs p') pid xps' /\ shows_image (objs p') xps' data (val x) (val y) (val wd) (val h) (val ph) ops.
Proof.
  intros w fuel ch cs1 s1 log1 beyond img pg x y wd h s2 cs2 log2 s s' F rid ts fi xi srcs pw H1 Ca H2 Hs Fr Pr OR Sr Ap Dp Rt Sm Px Py Pw Ph Pp.
  pose proof (history_join w fuel cs1 [KImgCache beyond img pg x y wd h] new_pdft s1 log1 s2 [(KImgCache beyond img pg x y wd h, None)] H1) as Hh.
  cbn [history] in Hh. rewrite Ca in Hh. cbn [bind fst snd] in Hh. specialize (Hh eq_refl).
  assert (X : exists id img' data ph, nth_error (s_cont s2) (List.length (s_cont s1)) = Some (CImg id pg x y wd h ph) /\ nth_error (map im_data (s_imgs s2)) id = Some data /\
    (img' = img \/ In img' (cached log1)) /\ md5 img' = md5 img /\ made w img' data /\ pageHeight s1 pg = Ok ph).
  { cbn [call_of] in Ca. unfold insertImgWithCache in Ca. cbv zeta in Ca. destruct (lookup (md5 img) (s_cache s1)) as [id|] eqn:L.
    - apply place_parts in Ca as (_ & ph & Ep & ->). unfold lookup in L. destruct (s_cache s1) as [m|] eqn:Em; [|discriminate]. apply assoc_in in L.
      destruct (cache_history _ _ _ _ _ H1 m (md5 img) id Em L) as (img' & data & I1 & I2 & I3 & I4). exists id, img', data, ph.
      split; [cbn [with_cont s_cont]; rewrite nth_error_app2 by lia; rewrite Nat.sub_diag; reflexivity|]. split; [exact I3|]. auto.
    - clear L. apply bind_ok in Ca as ([s3 [e3|]] & E & Ca); cbn [fst snd] in Ca; [discriminate|]. apply new_parts in E as (p & data & E & ->). destruct (s_cache s1) as [m|]; [|discriminate].
      apply place_parts in Ca as (_ & ph & Ep & ->). exists (List.length (s_imgs s1)), img, data, ph.
      split; [cbn [with_cont with_cache with_imgs with_pdf with_doc s_cont]; rewrite nth_error_app2 by lia; rewrite Nat.sub_diag; reflexivity|].
      split; [cbn [with_cont with_cache with_imgs s_imgs]; rewrite map_app, nth_error_app2 by (rewrite map_length; lia); rewrite map_length, Nat.sub_diag; reflexivity|].
      split; [left; reflexivity|]. split; [reflexivity|]. split; [|exact Ep]. exists beyond, (d_pdf (s_doc s1)), p. exact E. }
  destruct X as (id & img' & data & ph & Hc & Hd & I1 & I2 & I3 & Ep).
  destruct (image_in_file w fuel ch _ _ _ _ _ _ _ _ _ _ _ _ cs2 log2 s s' F rid ts fi xi srcs pw Hh Hc Hd H2 Hs Fr Pr OR Sr Ap Dp Rt Sm Px Py Pw Ph (Pp _ Ep)) as (p' & ins & ops & A1 & A2 & A3).
  exists p', ins, img', data, ph, ops. auto 8.
Qed.

(** ** Texts that are there *)
Lemma text_in_file : forall w fuel ch cs log s s' F rid ts fi xi srcs p' ins name k d u a b up uh f n ct l l2,
  history w fuel cs new_pdft = Ok (s, log) -> forallb (fun c => negb (is_save c)) cs = true -> registered log name k (Some d) ->
  saveTo w fuel ch s = Ok (s', Ok F) -> fair (ch_ord ch) -> saved_document w s s' rid ts fi xi srcs p' ins ->
  nth_error (s_fonts s) k = Some f -> map_ok (fd_map f) -> plain_name name -> face_file d u a b up uh ->
  nth_error (s_cont s) n = Some (CText k ct) ->
  fd_map f = add_texts (fd_ttf f) (l ++ ct_text ct :: l2) [] -> snd (add_chars (fd_ttf f) (ct_text ct) (add_texts (fd_ttf f) l [])) = Ok tt ->
  has_widths d (ct_text ct) -> cell_ok ct -> rise_fin (sfont_of f) (ct_size ct) (ct_text ct) -> (forall v, measure (sfont_of f) (ct_size ct) (ct_text ct) = Ok v -> on_paper v) ->
  exists ops, nth_error ins n = Some (ct_page ct, ops) /\ forall L fps, In L (flat_map leaves ts) -> page_fonts (objs (d_pdf (s_doc s))) L fps -> exists fps', page_fonts (objs p') L fps' /\ shows_text w (objs p') fps' f d u a b ct ops.
Proof.
  intros w fuel ch cs log s s' F rid ts fi xi srcs p' ins name k d u a b up uh f n ct l l2 Hh N3 Re2 Hs Fr D Hk Mo Pn Ff Hc M3 A2 Hw Co Ri Wi.
  pose proof (history_fresh _ _ _ _ _ _ N3 Hh new_fresh) as Fs. pose proof (history_inv _ _ _ _ _ Hh) as Iv.
  pose proof (registered_some _ _ _ _ _ Iv Re2) as Lk. destruct (inv_font _ _ Iv _ _ _ Re2) as (f0 & d' & Hk0 & Fam & Ed & Pt). assert (d' = d) by congruence. assert (f0 = f) by congruence. subst d' f0. clear Ed Hk0.
  assert (Nm : In (name, k) (names_of s)).
  { unfold names_of. unfold lookup in Lk. destruct (s_names s) as [ns|]; [|discriminate]. apply assoc_in. exact Lk. }
  assert (Bu : buildable f). { split; [|split; [rewrite Fam; exact Pn|exact Mo]]. pose proof (fr_bufs _ Fs) as A. rewrite Forall_forall in A. exact (A f (nth_error_In _ _ Hk)). }
  assert (Si : set_in d (sfont_of f) ct u a b up uh).
  { destruct Ff as [F1 F2 F3 F4 F5 F6 F7]. constructor; try assumption.
    split; [exact F1|]. split; [exact F2|]. split; [exact Pt|]. split; [exists u; auto|]. cbn [sfont_of sf_ttf sf_map]. split.
    + exists l, l2. rewrite M3. split; [reflexivity|exact A2].
    + intros rr g Hr Hg. exact (Hw _ _ _ Pt Hr Hg). }
  exact (text_shown w fuel ch s s' F rid ts fi xi srcs p' ins Hs Fr D _ _ _ _ _ _ _ _ _ _ _ Hc Nm Hk Bu Si).
Qed.

(** ** Lines of a wrapped text *)
Lemma lines_ready : forall ls pg x w h al c s s' id f l0, insert_lines ls pg x w h al c s = Ok (s', None) -> lookup (s_fname s) (s_names s) = Some id ->
  nth_error (s_fonts s) id = Some f -> fd_map f = add_texts (fd_ttf f) l0 [] ->
  exists ph, (ls = [] \/ pageHeight s pg = Ok ph) /\
    s_cont s' = s_cont s ++ map (fun l => CText id (mkText (fst l) c (s_style s) (s_size s) pg x (snd l) w h al (s_line s) ph)) ls /\
    exists f', nth_error (s_fonts s') id = Some f' /\ fd_ttf f' = fd_ttf f /\ fd_map f' = add_texts (fd_ttf f) (l0 ++ map fst ls) [] /\
      forall a t b, map fst ls = a ++ t :: b -> snd (add_chars (fd_ttf f) t (add_texts (fd_ttf f) (l0 ++ a) [])) = Ok tt.
Proof.
  induction ls as [|[t y] ls IH]; intros pg x w h al c s s' id f l0 H Lk Hf M; cbn [insert_lines] in H.
  - unfold ok in H. assert (s' = s) by congruence. subst. exists (fofz 0). split; [left; reflexivity|]. cbn [map]. rewrite !app_nil_r. split; [reflexivity|]. exists f. split; [exact Hf|]. split; [reflexivity|]. split; [exact M|].
    intros [|q a] t b E; discriminate.
  - apply bind_ok in H as ([s1 [e1|]] & E & H); cbn [fst snd] in H; [discriminate|]. unfold insert_text in E. apply bind_ok in E as (ph & Ep & E). cbv beta in E. rewrite Lk, Hf in E.
    unfold font_add in E. destruct (add_chars (fd_ttf f) t (fd_map f)) as (m, r) eqn:Ea. cbv zeta in E. destruct r as [[]| | |]; try discriminate. unfold ok in E.
    set (ct := mkText t c (s_style s) (s_size s) pg x y w h al (s_line s) ph) in *.
    assert (S1 : s1 = upd_font (with_cont s (s_cont s ++ [CText id ct])) id (fun _ => set_map f m)) by congruence. clear E.
    destruct (IH pg x w h al c s1 s' id (set_map f m) (l0 ++ [t])) as (ph2 & P2 & C2 & f' & F1 & F2 & F3 & F4).
    + exact H.
    + subst s1. exact Lk.
    + subst s1. cbn [upd_font with_fonts with_cont s_fonts]. rewrite nth_set, Hf. reflexivity.
    + cbn [set_map fd_map fd_ttf]. rewrite add_texts_app. cbn [add_texts]. rewrite <- M, Ea. reflexivity.
    + cbn [set_map fd_ttf] in F2, F3, F4. assert (P3 : ls = [] \/ ph2 = ph).
      { destruct P2 as [P2|P2]; [left; exact P2|right]. subst s1. change (pageHeight s pg = Ok ph2) in P2. congruence. }
      exists ph. split; [right; exact Ep|]. split.
      * rewrite C2. subst s1. cbn [upd_font with_fonts with_cont s_cont s_style s_size s_line map fst snd]. rewrite <- app_assoc. cbn [List.app]. f_equal. f_equal.
        destruct P3 as [-> | ->]; reflexivity.
      * exists f'. split; [exact F1|]. split; [exact F2|]. split; [rewrite F3, <- app_assoc; reflexivity|].
        intros [|q a] t' b E; cbn [map fst List.app] in E.
        -- assert (t' = t) by congruence. subst. rewrite app_nil_r, <- M, Ea. reflexivity.
        -- assert (q = t) by congruence. assert (E' : map fst ls = a ++ t' :: b) by congruence. subst q. specialize (F4 a t' b E'). rewrite <- app_assoc in F4. exact F4.
Qed.

Lemma drawn_app : forall a b k, ContentSpec.drawn (a ++ b) k = ContentSpec.drawn a k ++ ContentSpec.drawn b k.
Proof. induction a as [|[j z] a IH]; intros b k; cbn [List.app ContentSpec.drawn]; [reflexivity|]. rewrite IH. destruct (j =? k); [rewrite app_assoc|]; reflexivity. Qed.
Lemma drawn_on_page : forall l k, ContentSpec.drawn (map (fun o => (k, o)) l) k = List.concat l.
Proof. induction l as [|o l IH]; intros k; cbn [map ContentSpec.drawn List.concat]; [reflexivity|]. rewrite Z.eqb_refl, IH. reflexivity. Qed.
Lemma parts_drawn : forall w s s' rid ts fi xi srcs p' ins a opss z k pid cid old,
  saved_document w s s' rid ts fi xi srcs p' ins -> ins = a ++ map (fun o => (k, o)) opss ++ z -> opss <> [] -> own_page ts srcs k pid cid old ->
  drawn_on (objs p') pid cid old (List.concat opss).
Proof.
  intros w s s' rid ts fi xi srcs p' ins a opss z k pid cid old D E Ne (K1 & HL & Sr & Own).
  exists (ContentSpec.drawn a k), (ContentSpec.drawn z k). rewrite <- (drawn_on_page opss k), <- !drawn_app, <- E.
  apply (sd_contents _ _ _ _ _ _ _ _ _ _ D k pid cid old HL).
  - split; [exact K1|]. split; [exact Sr|]. destruct opss as [|o l]; [contradiction|]. exists o. rewrite E. apply in_or_app. right. left. reflexivity.
  - intros k' t' Hk (K1' & Sr' & _). apply Own in Sr'. lia.
Qed.

Lemma text_entries : forall fs is k g (pg : Z) (ls : list (bytes * f64)) ins, (forall l, ct_page (g l) = pg) ->
  Forall2 (fun c i => content_of fs is c = (fst i, Ok (snd i))) (map (fun l => CText k (g l)) ls) ins -> exists opss, ins = map (fun o => (pg, o)) opss /\ List.length opss = List.length ls.
Proof.
  intros fs is k g pg. induction ls as [|l ls IH]; intros ins Hp H; cbn [map] in H; inversion H as [|c0 [p o] ? ins' E R]; subst; [exists []; split; reflexivity|].
  destruct (IH _ Hp R) as (opss & -> & Le). cbn [content_of fst snd] in E. assert (p = pg) by (rewrite <- (Hp l); congruence). subst. exists (o :: opss). split; [reflexivity|]. cbn [List.length]. congruence.
Qed.
Lemma forall2_index : forall (A C : Type) (R : A -> C -> Prop) l m, List.length m = List.length l -> (forall i x y, nth_error l i = Some x -> nth_error m i = Some y -> R x y) -> Forall2 R l m.
Proof.
  induction l as [|x l IH]; intros [|y m] Le H; cbn [List.length] in Le; try lia; constructor; [apply (H 0%nat); reflexivity|]. apply IH; [lia|]. intros i. exact (H (Datatypes.S i)).
Qed.

Lemma wrapped_lines_from_calls : forall w fuel ch cs1 s1 log1 t pg x y wd h al c br toks s2 cs2 log2 s s' F rid ts fi xi srcs pw name st sz k d u a b up uh,
  history w fuel cs1 new_pdft = Ok (s1, log1) -> selected log1 name st sz -> registered log1 name k (Some d) ->
  br t = Ok toks -> call_of w fuel (KWrap t pg x y wd h al c (Some br)) s1 = Ok (s2, None) ->
  history w fuel cs2 s2 = Ok (s, log2) -> forallb (fun c => negb (is_save c)) cs1 = true -> forallb (fun c => negb (is_save c) && negb (is_open c)) cs2 = true ->
  saveTo w fuel ch s = Ok (s', Ok F) -> fair (ch_ord ch) -> protected_by s pw ->
  ready_document (d_pdf (s_doc s)) rid ts fi xi ->
  Forall2 (source (w_inflate w) (objs (d_pdf (s_doc s)))) (flat_map leaves ts) srcs ->
  (forall c, In c (content_ids srcs) -> ~ In c (root (d_pdf (s_doc s)) :: rid :: flat_map tree_ids ts) /\ ~ page_object (flat_map leaves ts) fi c) ->
  (depth (Node rid ts) <= fuel)%nat -> 0 <= root (d_pdf (s_doc s)) -> blen F < 10 ^ 10 ->
  face_file d u a b up uh -> plain_name name ->
  on_paper x -> on_paper wd -> on_paper h -> 0 <= sz <= 10000 ->
  (forall ph, pageHeight s1 pg = Ok ph -> on_paper ph) ->
  (forall f, nth_error (s_fonts s) k = Some f -> map_ok (fd_map f)) ->
  exists p' ins f0 f line ph lines, file_holds F p' pw /\ saved_document w s s' rid ts fi xi srcs p' ins /\
    nth_error (s_fonts s1) k = Some f0 /\ nth_error (s_fonts s) k = Some f /\ fd_family f = name /\
    snd (wrap_lines (sfont_of f0) sz wd y al toks) = Ok lines /\ wrapped (sfont_of f0) sz wd y al toks lines /\ (lines = [] \/ pageHeight s1 pg = Ok ph) /\
    forall pid cid old fps, own_page ts srcs pg pid cid old -> page_fonts (objs (d_pdf (s_doc s))) pid fps -> exists opss, (lines <> [] -> drawn_on (objs p') pid cid old (List.concat opss)) /\
      Forall2 (fun l ops => settable d f sz l -> exists fps', page_fonts (objs p') pid fps' /\
        shows_text w (objs p') fps' f d u a b (mkText (fst l) c (getConvertedStyle st) sz pg x (snd l) wd h al line ph) ops) lines opss.
Proof.
  intros w fuel ch cs1 s1 log1 t pg x y wd h al c br toks s2 cs2 log2 s s' F rid ts fi xi srcs pw name st sz k d u a b up uh.
  intros H1 Se Re Bt Ca H2 N1 N2 Hs Fr Pr OR Sr Ap Dp Rt Sm Ff Pn Px Pw Ph Hz Pp Hf.
  pose proof (history_inv _ _ _ _ _ H1) as Iv1. pose proof (registered_some _ _ _ _ _ Iv1 Re) as Lk1. destruct (inv_font _ _ Iv1 _ _ _ Re) as (f0 & d0 & Hf0 & _ & _ & _). clear d0.
  destruct (gr_new _ _ (history_grown _ _ _ _ _ _ H1) k f0 Hf0) as (l0 & M0); [destruct k; reflexivity|].
  assert (Cur : s_fname s1 = name /\ s_style s1 = getConvertedStyle st /\ s_size s1 = sz).
  { destruct (inv_sel _ _ Iv1) as [(n & st' & sz' & Se' & Cu)|(Un & Cu)].
    2: { exfalso. destruct Se as (bf & af & -> & _). rewrite forallb_app in Un. apply andb_true_iff in Un as [_ Un]. discriminate Un. }
    destruct (selected_unique _ _ _ _ _ _ _ Se Se') as (<- & <- & <-). unfold curr in Cu. split; [congruence|]. split; congruence. }
  destruct Cur as (C1 & C2 & C3).
  (* the call *)
  assert (X : exists lines ph f2 l1, snd (wrap_lines (sfont_of f0) sz wd y al toks) = Ok lines /\ wrapped (sfont_of f0) sz wd y al toks lines /\ (lines = [] \/ pageHeight s1 pg = Ok ph) /\
    s_cont s2 = s_cont s1 ++ map (fun l => CText k (mkText (fst l) c (getConvertedStyle st) sz pg x (snd l) wd h al (s_line s1) ph)) lines /\
    nth_error (s_fonts s2) k = Some f2 /\ fd_map f2 = add_texts (fd_ttf f2) (l1 ++ map fst lines) [] /\
    forall p z q, map fst lines = p ++ z :: q -> snd (add_chars (fd_ttf f2) z (add_texts (fd_ttf f2) (l1 ++ p) [])) = Ok tt).
  { cbn [call_of] in Ca. unfold insertWrapText in Ca. rewrite Bt in Ca. destruct (forallb (fun t => beqb t []) toks) eqn:Ab.
    - unfold ok in Ca. assert (s2 = s1) by congruence. subst s2. exists [], (fofz 0), f0, l0. split.
      { unfold wrap_lines. assert (E : forall f, wrap_loop f sz wd toks [] y [] = (f, Ok ([], [], y))); [|rewrite E; reflexivity].
        clear - Ab. induction toks as [|q toks IH]; intros f; [reflexivity|]. cbn [forallb] in Ab. apply andb_true_iff in Ab as (A & C). apply beqb_eq in A. subst q. cbn [wrap_loop]. exact (IH C f). }
      split.
      + exists [], (fofz 0). cbn [List.concat map List.length steps]. split.
        * clear - Ab. induction toks as [|q toks IH]; [reflexivity|]. cbn [forallb filter] in *. apply andb_true_iff in Ab as (A & C). apply beqb_eq in A. subst q. cbn [nonempty]. exact (IH C).
        * split; [reflexivity|]. split; [constructor|]. split; [intros [|? ?] ? ? ? E; discriminate|]. split; reflexivity.
      + split; [left; reflexivity|]. cbn [map]. rewrite !app_nil_r. split; [reflexivity|]. split; [exact Hf0|]. split; [exact M0|]. intros [|? ?] z q E; discriminate.
    - rewrite C1, Lk1, Hf0 in Ca. apply bind_ok in Ca as (ph1 & _ & Ca). cbv beta in Ca. destruct (wrap_lines _ _ _ _ _ _) as [f' r] eqn:Ew. cbv zeta in Ca.
      destruct r as [lines| | |]; try discriminate. rewrite C3 in Ew. pose proof (wrap_texts _ _ _ _ _ _ _ _ Ew) as (_ & lw & Mw). cbn [sfont_of sf_ttf sf_map] in Mw.
      assert (W : wrapped (sfont_of f0) sz wd y al toks lines).
      { unfold sfont_of in *. rewrite M0 in *. exact (wrap_groups_of _ _ _ _ _ _ _ _ _ _ _ Ew). }
      destruct (lines_ready lines pg x wd h al c _ s2 k (set_map f0 (sf_map f')) (l0 ++ lw) Ca) as (ph & P & Ec & f2 & F1 & F2 & F3 & F4).
      + cbn [upd_font with_fonts s_fname s_names]. rewrite C1. exact Lk1.
      + cbn [upd_font with_fonts s_fonts]. rewrite nth_set, Hf0. reflexivity.
      + cbn [set_map fd_map fd_ttf]. rewrite Mw, M0, add_texts_app. reflexivity.
      + cbn [set_map fd_ttf] in F2, F3, F4. exists lines, ph, f2, (l0 ++ lw). split; [rewrite Ew; reflexivity|]. split; [exact W|]. split; [exact P|]. split.
        * rewrite Ec. cbn [upd_font with_fonts s_cont s_style s_size s_line]. rewrite C2, C3. reflexivity.
        * split; [exact F1|]. rewrite F2. split; [exact F3|exact F4]. }
  destruct X as (lines & ph & f2 & l1 & Wl & Wr & Ep & Ec & Hf2 & M2 & A2).
  pose proof (history_join w fuel cs1 (KWrap t pg x y wd h al c (Some br) :: cs2) new_pdft s1 log1 s ((KWrap t pg x y wd h al c (Some br), None) :: log2) H1) as Hh.
  cbn [history] in Hh. rewrite Ca in Hh. cbn [bind fst snd] in Hh. rewrite H2 in Hh. cbn [bind fst snd] in Hh. specialize (Hh eq_refl).
  assert (N3 : forallb (fun c => negb (is_save c)) (cs1 ++ KWrap t pg x y wd h al c (Some br) :: cs2) = true).
  { rewrite forallb_app, N1. cbn [forallb is_save negb andb]. clear - N2. induction cs2 as [|z cs IH]; [reflexivity|]. cbn [forallb] in *. apply andb_true_iff in N2 as (A & C). apply andb_true_iff in A as (A & _). rewrite A, (IH C). reflexivity. }
  pose proof (history_fresh _ _ _ _ _ _ N1 H1 new_fresh) as Fs1. pose proof (history_inv _ _ _ _ _ Hh) as Iv.
  assert (Re2 : registered (log1 ++ (KWrap t pg x y wd h al c (Some br), None) :: log2) name k (Some d)).
  { destruct Re as (bf & by_ & aft & -> & O1 & ->). exists bf, by_, (aft ++ (KWrap t pg x y wd h al c (Some br), None) :: log2). split; [rewrite <- app_assoc; reflexivity|]. split; [|reflexivity].
    rewrite forallb_app. apply andb_true_iff. split; [exact O1|]. cbn [forallb opens fst negb andb]. pose proof (history_calls _ _ _ _ _ _ H2) as Lc. clear - N2 Lc. revert cs2 N2 Lc. induction log2 as [|[z e] lg IH]; intros cs2 N2 Lc; [reflexivity|].
    cbn [map fst] in Lc. destruct cs2 as [|z' cs2]; [discriminate|]. cbn [forallb] in *. apply andb_true_iff in N2 as (A & C). injection Lc as -> Lc. rewrite (IH _ C Lc), andb_true_r.
    apply andb_true_iff in A as (_ & A). unfold opens. cbn [fst]. destruct z'; try reflexivity. discriminate. }
  destruct (inv_font _ _ Iv _ _ _ Re2) as (f & d' & Hk & Fam & _ & _). clear d'.
  pose proof (history_grown _ _ _ _ _ _ H2) as G. destruct (gr_old _ _ G k f2 Hf2) as (f' & Hf' & Tt & l2 & M3). assert (f' = f) by congruence. subst f'. clear Hf'.
  destruct (gr_cont _ _ G) as (more & Em). rewrite Ec in Em.
  destruct (saved_either _ _ _ _ _ _ _ _ _ _ _ _ _ _ Hh Hs Fr Pr OR Sr Ap Dp Rt Sm) as (p' & ins & Fo & D).
  exists p', ins, f0, f, (s_line s1), ph, lines. split; [exact Fo|]. split; [exact D|]. split; [exact Hf0|]. split; [exact Hk|]. split; [exact Fam|]. split; [exact Wl|]. split; [exact Wr|]. split; [exact Ep|].
  intros pid cid old fps Ow Pf.
  pose proof (sd_drawn _ _ _ _ _ _ _ _ _ _ D) as Dr. rewrite Em, <- app_assoc in Dr. apply Forall2_app_inv_l in Dr as (i1 & ir & D1 & Dr & Ei). apply Forall2_app_inv_l in Dr as (i2 & i3 & D2 & _ & ->).
  destruct (text_entries (s_fonts s') (s_imgs s') k (fun l => mkText (fst l) c (getConvertedStyle st) sz pg x (snd l) wd h al (s_line s1) ph) pg lines i2) as (opss & -> & Le); [intros l; reflexivity|exact D2|].
  exists opss. split.
  - intros Ne. eapply parts_drawn; [exact D|exact Ei| |exact Ow]. intros ->. destruct lines; [contradiction|discriminate].
  - apply forall2_index; [exact Le|]. intros i [t' y'] ops Hl Ho (Hw & Py & Ri & Wi). cbn [fst snd] in *.
    assert (Hc : nth_error (s_cont s) (List.length (s_cont s1) + i) = Some (CText k (mkText t' c (getConvertedStyle st) sz pg x y' wd h al (s_line s1) ph))).
    { rewrite Em, <- app_assoc. rewrite nth_error_app2 by lia. replace (_ + i - _)%nat with i by lia. rewrite nth_error_app1; [|rewrite map_length; apply nth_error_Some; congruence]. rewrite nth_error_map, Hl. reflexivity. }
    destruct (nth_error_split _ _ Hl) as (la & lb & El & _).
    assert (Ml : map fst lines = map fst la ++ t' :: map fst lb) by (rewrite El, map_app; reflexivity).
    destruct (text_in_file w fuel ch _ _ s s' F rid ts fi xi srcs p' ins name k d u a b up uh f _ _ (l1 ++ map fst la) (map fst lb ++ l2) Hh N3 Re2 Hs Fr D Hk (Hf f Hk) Pn Ff Hc) as (ops' & Hi & Sh); cbn [ct_text ct_size ct_page].
    + rewrite M3, M2, Tt, Ml, <- add_texts_app. f_equal. rewrite <- !app_assoc. reflexivity.
    + rewrite Tt. exact (A2 _ _ _ Ml).
    + exact Hw.
    + constructor; cbn [ct_x ct_y ct_w ct_h ct_line ct_height ct_size]; auto; [apply thin_paper; exact (fr_line _ Fs1)|]. destruct Ep as [Ep|Ep]; [subst lines; destruct i; discriminate|]. exact (Pp _ Ep).
    + exact Ri.
    + exact Wi.
    + assert (ops' = ops).
      { rewrite Ei in Hi. assert (L1 : List.length (s_cont s1) = List.length i1) by (clear - D1; induction D1; cbn [List.length]; congruence). rewrite nth_error_app2 in Hi by lia. replace (_ + i - _)%nat with i in Hi by lia.
        rewrite nth_error_app1 in Hi by (rewrite map_length; apply nth_error_Some; congruence). rewrite nth_error_map, Ho in Hi. cbn [option_map] in Hi. congruence. }
      subst ops'. apply Sh with (fps := fps); [|exact Pf]. destruct Ow as (_ & HL & _). exact (nth_error_In _ _ HL).
Qed.

Theorem wrapped_from_calls : forall w fuel ch cs1 s1 log1 t pg x y wd h al c br toks s2 cs2 log2 s s' F rid ts fi xi srcs pw name st sz k d u a b up uh,
  history w fuel cs1 new_pdft = Ok (s1, log1) -> selected log1 name st sz -> registered log1 name k (Some d) ->
  br t = Ok toks -> call_of w fuel (KWrap t pg x y wd h al c (Some br)) s1 = Ok (s2, None) ->
  history w fuel cs2 s2 = Ok (s, log2) -> forallb (fun c => negb (is_save c)) cs1 = true -> forallb (fun c => negb (is_save c) && negb (is_open c)) cs2 = true ->
  saveTo w fuel ch s = Ok (s', Ok F) -> fair (ch_ord ch) -> protected_by s pw ->
  ready_document (d_pdf (s_doc s)) rid ts fi xi ->
  Forall2 (source (w_inflate w) (objs (d_pdf (s_doc s)))) (flat_map leaves ts) srcs ->
  (forall c, In c (content_ids srcs) -> ~ In c (root (d_pdf (s_doc s)) :: rid :: flat_map tree_ids ts) /\ ~ page_object (flat_map leaves ts) fi c) ->
  (depth (Node rid ts) <= fuel)%nat -> 0 <= root (d_pdf (s_doc s)) -> blen F < 10 ^ 10 ->
  face_file d u a b up uh -> plain_name name ->
  on_paper x -> on_paper wd -> on_paper h -> 0 <= sz <= 10000 ->
  (forall ph, pageHeight s1 pg = Ok ph -> on_paper ph) ->
  (forall f, nth_error (s_fonts s) k = Some f -> map_ok (fd_map f)) ->
  exists p' ins f0 f line ph lines, file_holds F p' pw /\ saved_document w s s' rid ts fi xi srcs p' ins /\
    nth_error (s_fonts s1) k = Some f0 /\ nth_error (s_fonts s) k = Some f /\ fd_family f = name /\
    wrapped (sfont_of f0) sz wd y al toks lines /\ (lines = [] \/ pageHeight s1 pg = Ok ph) /\
    forall pid cid old fps, own_page ts srcs pg pid cid old -> page_fonts (objs (d_pdf (s_doc s))) pid fps -> exists opss, (lines <> [] -> drawn_on (objs p') pid cid old (List.concat opss)) /\
      Forall2 (fun l ops => settable d f sz l -> exists fps', page_fonts (objs p') pid fps' /\
        shows_text w (objs p') fps' f d u a b (mkText (fst l) c (getConvertedStyle st) sz pg x (snd l) wd h al line ph) ops) lines opss.
Proof.
  intros w fuel ch cs1 s1 log1 t pg x y wd h al c br toks s2 cs2 log2 s s' F rid ts fi xi srcs pw name st sz k d u a b up uh.
  intros H1 Se Re Bt Ca H2 N1 N2 Hs Fr Pr OR Sr Ap Dp Rt Sm Ff Pn Px Pw Ph Hz Pp Hf.
  destruct (wrapped_lines_from_calls w fuel ch cs1 s1 log1 t pg x y wd h al c br toks s2 cs2 log2 s s' F rid ts fi xi srcs pw name st sz k d u a b up uh
    H1 Se Re Bt Ca H2 N1 N2 Hs Fr Pr OR Sr Ap Dp Rt Sm Ff Pn Px Pw Ph Hz Pp Hf) as (p' & ins & f0 & f & line & ph & lines & A1 & A2 & A3 & A4 & A5 & _ & A6).
  exists p', ins, f0, f, line, ph, lines. auto 7.
Qed.
