(** Object numbers: what saving adds. *)
From Coq Require Import String List ZArith Lia Bool Permutation.
From Coq.Floats Require Import SpecFloat.
From Verif Require Import Base BaseProofs Output Props PdfData PagesProofs Crawl Inject Md5Rc4 Crypto Png Utf8 Float64 Ttf Subset Text Wrap Parse Api ApiSpec ApiProofs.
Open Scope Z_scope.
Open Scope list_scope.

(** ** Nothing that rewrites objects changes their numbers *)
Lemma setData_ids : forall id d os os', setData id d os = Ok os' -> map oid os' = map oid os.
Proof.
  intros id d os os' H. unfold setData in H. destruct (getIdx id os); [|discriminate].
  assert (E : os' = set_nth n (fun o => mkObj (oid o) d) os) by congruence. rewrite E. apply map_set_nth. reflexivity.
Qed.
Lemma replaceAll_ids : forall wrap must os os', replaceAll wrap must os = Ok os' -> map oid os' = map oid os.
Proof.
  induction must as [|[id s] must IH]; intros os os' H; cbn [replaceAll] in H; [congruence|].
  apply bind_ok in H as (o1 & E & H). rewrite (IH _ _ H). eapply setData_ids; eauto.
Qed.
Lemma injectFonts_ids : forall ord p fonts p' idx, injectFonts ord p fonts = Ok (p', idx) -> map oid (objs p') = map oid (objs p) /\ root p' = root p.
Proof.
  intros ord p fonts p' idx H. unfold injectFonts in H. apply bind_ok in H as (rs & _ & H). apply bind_ok in H as (mx & _ & H).
  cbv zeta in H. apply bind_ok in H as (must & _ & H). apply bind_ok in H as (os & E & H).
  assert (X : p' = mkPdf (root p) os) by congruence. rewrite X. split; [|reflexivity]. eapply replaceAll_ids; exact E.
Qed.
Lemma injectImgs_ids : forall ord p imgs p' names, injectImgs ord p imgs = Ok (p', names) -> map oid (objs p') = map oid (objs p) /\ root p' = root p.
Proof.
  intros ord p imgs p' names H. unfold injectImgs in H. cbv zeta in H. apply bind_ok in H as (rs & _ & H). apply bind_ok in H as (fr & _ & H).
  destruct fr as [[rx em]|]; [|discriminate]. apply bind_ok in H as (cw1 & _ & H). apply bind_ok in H as ([cw vals] & _ & H).
  destruct (scanXobjs _ _ _ _) as [[old ch] ix]. apply bind_ok in H as (must & _ & H). apply bind_ok in H as (os & E & H).
  assert (X : p' = mkPdf (root p) os) by congruence. rewrite X. split; [|reflexivity]. eapply replaceAll_ids; exact E.
Qed.
Lemma injectContent_ids : forall ord inf bey fuel p cs p', injectContent ord inf bey fuel p cs = Ok p' -> map oid (objs p') = map oid (objs p) /\ root p' = root p.
Proof.
  intros ord inf bey fuel p cs p' H. unfold injectContent in H. apply bind_ok in H as (bf & _ & H). apply bind_ok in H as (ids & _ & H).
  apply bind_ok in H as ([must stop] & _ & H). destruct stop; [assert (p' = p) by congruence; subst; auto|].
  apply bind_ok in H as (os & E & H). assert (X : p' = mkPdf (root p) os) by congruence. rewrite X. split; [|reflexivity].
  eapply replaceAll_ids; exact E.
Qed.
Lemma encrypt_id : forall pr o o', encrypt pr o = Ok o' -> oid o' = oid o.
Proof.
  intros pr o o' H. unfold encrypt in H. cbv zeta in H. destruct (index _ _); [|congruence].
  apply bind_ok in H as (b & _ & H). apply bind_ok in H as (c & _ & H).
  apply (f_equal (fun r => match r with Ok a => oid a | _ => 0 end)) in H. cbn [oid] in H. congruence.
Qed.
Lemma encrypt_all_ids : forall pr os os', encrypt_all pr os = Ok os' -> map oid os' = map oid os.
Proof.
  induction os as [|o os IH]; intros os' H; cbn [encrypt_all] in H; [congruence|].
  apply bind_ok in H as (o' & E & H). apply bind_ok in H as (l & El & H). assert (X : os' = o' :: l) by congruence. rewrite X.
  cbn [map]. rewrite (IH _ El). f_equal. destruct (encrypt pr o) eqn:En; try discriminate; [|congruence].
  assert (a = o') by congruence. subst. eapply encrypt_id; eauto.
Qed.

(** ** Fonts *)
Definition font_ids (f : font) : list Z := [fd_id f; fd_id f + 1; fd_id f + 2; fd_id f + 3; fd_id f + 4].
Lemma font_objs_ids : forall f, map oid (font_objs f) = font_ids f.
Proof. intros f. unfold font_objs, font_ids. destruct (fd_bufs f) as [[[[b1 b2] b3] b4] b5]. reflexivity. Qed.
Definition ids_at (fs : list font) (id : nat) : list Z := match nth_error fs id with Some f => font_ids f | None => [] end.

Lemma font_build_id : forall w f n f', font_build w f n = Ok f' -> fd_id f' = n + 1.
Proof.
  intros w f n f' H. unfold font_build in H. apply bind_ok in H as (cid & _ & H). apply bind_ok in H as (dict & _ & H). cbv beta in H.
  destruct (fd_bufs f) as [[[[b1 b2] b3] b4] b5]. injection H as <-. reflexivity.
Qed.
Lemma nth_set : forall (A : Type) (l : list A) n f, nth_error (set_nth n f l) n = option_map f (nth_error l n).
Proof. induction l as [|a l IH]; intros [|n] f; cbn; auto. Qed.
Lemma nth_set_other : forall (A : Type) (l : list A) n m f, m <> n -> nth_error (set_nth n f l) m = nth_error l m.
Proof. induction l as [|a l IH]; intros [|n] [|m] f H; cbn; auto; try congruence. Qed.

Lemma build_fonts_other : forall w ids fs n fs' r id, build_fonts w ids fs n = (fs', r) -> ~ In id ids -> nth_error fs' id = nth_error fs id.
Proof.
  induction ids as [|i ids IH]; intros fs n fs' r id H N; cbn [build_fonts] in H; [congruence|].
  destruct (nth_error fs i) as [f|]; [|congruence]. destruct (font_build w f (n + 1)); try congruence.
  rewrite (IH _ _ _ _ _ H) by (intros X; apply N; right; exact X).
  apply nth_set_other. intros ->. apply N. left. reflexivity.
Qed.
Lemma build_fonts_ids : forall w ids fs n fs' m, build_fonts w ids fs n = (fs', Ok m) -> NoDup ids ->
  n <= m /\ NoDup (flat_map (ids_at fs') ids) /\ Forall (fun i => n < i <= m) (flat_map (ids_at fs') ids)
  /\ Forall (fun id => exists f, nth_error fs' id = Some f) ids.
Proof.
  induction ids as [|i ids IH]; intros fs n fs' m H D; cbn [build_fonts] in H.
  - assert (n = m) by congruence. subst. repeat split; try constructor; lia.
  - destruct (nth_error fs i) as [f|] eqn:N; [|congruence]. destruct (font_build w f (n + 1)) as [f'| | |] eqn:E; try congruence.
    apply NoDup_cons_iff in D as [D1 D2]. pose proof (IH _ _ _ _ H D2) as (Le & Nd & Fo & Ex).
    assert (X : nth_error fs' i = Some f').
    { rewrite (build_fonts_other _ _ _ _ _ _ _ H D1), nth_set, N. reflexivity. }
    apply font_build_id in E. cbn [flat_map]. unfold ids_at at 1 3. rewrite X. unfold font_ids. rewrite E.
    assert (Fo' : Forall (fun j => n + 6 < j <= m) (flat_map (ids_at fs') ids)) by exact Fo.
    rewrite Forall_forall in Fo'.
    split; [lia|]. split; [|split].
    + cbn [app]. repeat (constructor; [intros X1; cbn [In] in X1; repeat (destruct X1 as [X1|X1]; [lia|]); apply Fo' in X1; lia|]). exact Nd.
    + cbn [app]. repeat (constructor; [lia|]). apply Forall_forall. intros j Hj. apply Fo' in Hj. lia.
    + constructor; eauto.
Qed.
Lemma set_index_ids : forall idx fs, map font_ids (fold_left set_index idx fs) = map font_ids fs.
Proof. induction idx as [|h idx IH]; intros fs; cbn [fold_left]; [reflexivity|]. rewrite IH. apply map_set_nth. reflexivity. Qed.
Lemma ids_at_eq : forall fs fs' id, map font_ids fs = map font_ids fs' -> ids_at fs id = ids_at fs' id.
Proof.
  intros fs fs' id E. unfold ids_at.
  assert (X : forall l, match nth_error l id with Some f => font_ids f | None => [] end = match nth_error (map font_ids l) id with Some a => a | None => [] end).
  { intros l. destruct (nth_error l id) eqn:N; [rewrite (map_nth_error _ _ _ N); reflexivity|].
    apply nth_error_None in N. assert (Y : nth_error (map font_ids l) id = None) by (apply nth_error_None; rewrite map_length; lia). rewrite Y. reflexivity. }
  rewrite !X, E. reflexivity.
Qed.

(** ** Images *)
Lemma img_objs_len : forall is n, List.length (img_objs is n) = List.length is.
Proof. induction is as [|i is IH]; intros n; cbn; auto. Qed.
Lemma img_objs_ids : forall is n, NoDup (map oid (img_objs is n)) /\ Forall (fun i => n < i <= n + Z.of_nat (List.length is)) (map oid (img_objs is n)).
Proof.
  induction is as [|i is IH]; intros n; cbn [img_objs map oid List.length]; [split; constructor|].
  destruct (IH (n + 1)) as [D F]. rewrite Forall_forall in F. split; constructor; auto.
  - intros X. apply F in X. lia.
  - lia.
  - apply Forall_forall. intros j Hj. apply F in Hj. lia.
Qed.

(** ** The saved file *)
Lemma nodup_join : forall (A : Type) (l m : list A), NoDup l -> NoDup m -> (forall a, In a l -> ~ In a m) -> NoDup (l ++ m).
Proof.
  intros A l m Hl Hm D. induction Hl as [|x l N _ IH]; cbn; [exact Hm|]. constructor.
  - intros X. apply in_app_or in X as [X|X]; [auto|]. apply (D x); [left; reflexivity|exact X].
  - apply IH. intros a Ha. apply D. right. exact Ha.
Qed.
Definition names_of (s : state) : list (bytes * nat) := match s_names s with Some n => n | None => [] end.

Lemma flat_ids : forall fs (l : list (Z * unit)),
  map oid (flat_map (fun x => match nth_error fs (Z.to_nat (fst x)) with Some f => font_objs f | None => [] end) l)
  = flat_map (ids_at fs) (map (fun x => Z.to_nat (fst x)) l).
Proof.
  induction l as [|x l IH]; cbn [flat_map map]; [reflexivity|]. rewrite map_app, IH. f_equal. unfold ids_at.
  destruct (nth_error fs _); [apply font_objs_ids|reflexivity].
Qed.
Lemma ids_at_len : forall fs ids, Forall (fun id => exists f, nth_error fs id = Some f) ids ->
  List.length (flat_map (ids_at fs) ids) = (5 * List.length ids)%nat.
Proof.
  intros fs ids H. induction H as [|i ids (f & N) _ IH]; cbn [flat_map List.length]; [reflexivity|].
  rewrite app_length, IH. unfold ids_at. rewrite N. cbn [font_ids List.length]. lia.
Qed.

Lemma save_shape : forall w fuel ch s s' F, saveTo w fuel ch s = Ok (s', Ok F) -> fair (ch_ord ch) -> NoDup (map snd (names_of s)) ->
  let p0 := d_pdf (s_doc s) in
  map oid (objs (d_pdf (s_doc s'))) = map oid (objs p0) /\ root (d_pdf (s_doc s')) = root p0 /\
  exists os last fresh,
    F = toStream os last (root p0) (option_map enc_dict (s_prot s)) /\
    map oid os = map oid (objs p0) ++ fresh /\ NoDup fresh /\ maxID (objs p0) <= last /\
    Forall (fun i => maxID (objs p0) < i <= last) fresh /\
    List.length fresh = (5 * List.length (names_of s) + List.length (s_imgs s))%nat.
Proof.
  intros w fuel ch s s' F H Fair ND p0. unfold saveTo in H. cbv zeta in H. fold p0 in H.
  set (handles := match s_names s with Some n => _ | None => _ end) in H.
  assert (Hh : handles = map (fun x => (Z.of_nat (snd x), tt)) (names_of s)) by (unfold handles, names_of; destruct (s_names s); reflexivity).
  clearbody handles. subst handles. set (handles := map (fun x => (Z.of_nat (snd x), tt)) (names_of s)) in H.
  assert (Hm : map (fun x => Z.to_nat (fst x)) handles = map snd (names_of s)).
  { unfold handles. rewrite map_map. apply map_ext. intros x. cbn. lia. }
  pose proof (Fair [31] _ handles) as P31. pose proof (Fair [32] _ handles) as P32.
  set (h31 := ch_ord ch [31] unit handles) in *. set (h32 := ch_ord ch [32] unit handles) in *.
  apply (Permutation_map (fun x => Z.to_nat (fst x))) in P31. apply (Permutation_map (fun x => Z.to_nat (fst x))) in P32.
  rewrite Hm in P31, P32.
  set (order := map _ h31) in H. fold order in P31.
  destruct (build_fonts w order (s_fonts s) (maxID (objs p0))) as [fs1 r1] eqn:Eb.
  destruct r1 as [next|e| |]; try discriminate.
  assert (NDo : NoDup order) by (eapply Permutation_NoDup; [symmetry; exact P31|exact ND]).
  destruct (build_fonts_ids _ _ _ _ _ _ Eb NDo) as (Le & Nd & Fo & Ex).
  destruct (injectFonts _ _ _) as [[p1 idx]|e| |] eqn:Ef; try discriminate.
  destruct (injectFonts_ids _ _ _ _ _ Ef) as [I1 R1]. clear Ef.
  pose proof (set_index_ids idx fs1) as Ki. set (fs2 := fold_left set_index idx fs1) in *. clearbody fs2.
  set (new := flat_map _ h32) in H. set (imgs := img_objs (s_imgs s) next) in H.
  assert (Hn : map oid new = flat_map (ids_at fs1) (map (fun x => Z.to_nat (fst x)) h32)).
  { unfold new. rewrite flat_ids. apply flat_map_ext. intros a. apply ids_at_eq. exact Ki. }
  assert (Pn : Permutation (map oid new) (flat_map (ids_at fs1) order)).
  { rewrite Hn. apply Permutation_flat_map. rewrite P32, P31. reflexivity. }
  destruct (injectImgs _ _ _) as [[p4 names]|e| |] eqn:Ei; try discriminate.
  destruct (injectImgs_ids _ _ _ _ _ Ei) as [I4 R4]. cbn [objs root] in I4, R4. clear Ei.
  destruct (injectContent _ _ _ _ _ _) as [p5|e| |] eqn:Ec; try discriminate.
  destruct (injectContent_ids _ _ _ _ _ _ _ Ec) as [I5 R5]. clear Ec.
  rewrite !map_app in I4.
  assert (Keep : forall os5 b (st : state), map oid os5 = map oid (objs p5) ->
    map oid (objs (d_pdf (s_doc st))) = map oid (objs p0) ->
    root (d_pdf (s_doc st)) = root p0 ->
    let st' := if b : bool then with_pdf st (mkPdf (root p5) (firstn (List.length (objs p0)) os5)) else st in
    map oid (objs (d_pdf (s_doc st'))) = map oid (objs p0) /\ root (d_pdf (s_doc st')) = root p0).
  { intros os5 b st E5 Es Er. destruct b; cbn; [|auto]. split; [|congruence].
    rewrite <- firstn_map, E5, I5, I4. rewrite I1. rewrite firstn_app. rewrite map_length, Nat.sub_diag. cbn. rewrite app_nil_r.
    rewrite <- (map_length oid (objs p0)). apply firstn_all. }
  assert (Keep4 : forall b (st : state), 
    map oid (objs (d_pdf (s_doc st))) = map oid (objs p0) ->
    root (d_pdf (s_doc st)) = root p0 ->
    let st' := if b : bool then with_pdf st (mkPdf (root p4) (firstn (List.length (objs p0)) (objs p4))) else st in
    map oid (objs (d_pdf (s_doc st'))) = map oid (objs p0) /\ root (d_pdf (s_doc st')) = root p0).
  { intros b st Es Er. destruct b; cbn; [|auto]. split; [|congruence].
    rewrite <- firstn_map, I4. rewrite I1. rewrite firstn_app. rewrite map_length, Nat.sub_diag. cbn. rewrite app_nil_r.
    rewrite <- (map_length oid (objs p0)). apply firstn_all. }
  set (fresh := map oid new ++ map oid imgs).
  destruct (img_objs_ids (s_imgs s) next) as [Di Fi]. fold imgs in Di, Fi.
  assert (Len : List.length imgs = List.length (s_imgs s)) by apply img_objs_len.
  rewrite Forall_forall in Fo, Fi.
  assert (Fresh : NoDup fresh /\ maxID (objs p0) <= next + Z.of_nat (List.length imgs) /\
    Forall (fun i => maxID (objs p0) < i <= next + Z.of_nat (List.length imgs)) fresh /\
    List.length fresh = (5 * List.length (names_of s) + List.length (s_imgs s))%nat).
  { split; [|split; [lia|split]].
    - unfold fresh. apply nodup_join; [|exact Di|].
      + eapply Permutation_NoDup; [symmetry; exact Pn|exact Nd].
      + intros a Ha Hb. apply (Permutation_in _ Pn) in Ha. apply Fo in Ha. apply Fi in Hb. lia.
    - unfold fresh. apply Forall_forall. intros i Hi. apply in_app_or in Hi as [Hi|Hi].
      + apply (Permutation_in _ Pn) in Hi. apply Fo in Hi. lia.
      + apply Fi in Hi. rewrite Len. lia.
    - unfold fresh. rewrite app_length, (Permutation_length Pn), ids_at_len by exact Ex. rewrite map_length, Len.
      pose proof (Permutation_length P31) as L. rewrite map_length in L. lia. }
  destruct Fresh as (A1 & A2 & A3 & A4).
  set (s3 := with_imgs (with_pdf (with_fonts (with_fonts s fs1) fs2) p1) _) in H.
  destruct (s_prot s) as [pr|].
  - apply bind_ok in H as (os & Eo & H). apply encrypt_all_ids in Eo.
    set (b := match new ++ imgs with [] => true | _ => ch_room ch end) in H. clearbody b.
    assert (E1 : s' = _ /\ F = _) by (split; [symmetry; exact (f_equal (fun r => match r with Ok (a, _) => a | _ => s' end) H)|symmetry; exact (f_equal (fun r => match r with Ok (_, Ok a) => a | _ => F end) H)]).
    destruct E1 as [Es' EF]. cbv beta iota in Es', EF.
    assert (K : map oid (objs (d_pdf (s_doc s'))) = map oid (objs p0) /\ root (d_pdf (s_doc s')) = root p0).
    { rewrite Es'. cbn [root objs]. apply (Keep os b); [exact Eo| |].
      - exact (proj1 (Keep4 b s3 I1 R1)).
      - exact (proj2 (Keep4 b s3 I1 R1)). }
    split; [apply K|]. split; [apply K|].
    exists os, (next + Z.of_nat (List.length imgs)), fresh.
    split; [rewrite EF; cbn; f_equal; congruence|]. split; [|auto].
    rewrite Eo, I5, I4, I1. reflexivity.
  - set (b := match new ++ imgs with [] => true | _ => ch_room ch end) in H. clearbody b.
    assert (E1 : s' = _ /\ F = _) by (split; [symmetry; exact (f_equal (fun r => match r with Ok (a, _) => a | _ => s' end) H)|symmetry; exact (f_equal (fun r => match r with Ok (_, Ok a) => a | _ => F end) H)]).
    destruct E1 as [Es' EF]. cbv beta iota in Es', EF.
    assert (K : map oid (objs (d_pdf (s_doc s'))) = map oid (objs p0) /\ root (d_pdf (s_doc s')) = root p0).
    { rewrite Es'. apply (Keep (objs p5) b); [reflexivity| |].
      - exact (proj1 (Keep4 b s3 I1 R1)).
      - exact (proj2 (Keep4 b s3 I1 R1)). }
    split; [apply K|]. split; [apply K|].
    exists (objs p5), (next + Z.of_nat (List.length imgs)), fresh.
    split; [rewrite EF; cbn; f_equal; congruence|]. split; [|auto].
    rewrite I5, I4, I1. reflexivity.
Qed.

(** ** All calls *)
Lemma save_keeps_ids : forall w fuel ch s s' r, saveTo w fuel ch s = Ok (s', r) ->
  map oid (objs (d_pdf (s_doc s'))) = map oid (objs (d_pdf (s_doc s))) /\ root (d_pdf (s_doc s')) = root (d_pdf (s_doc s)).
Proof.
  intros w fuel ch s s' r H. unfold saveTo in H. cbv zeta in H. set (p0 := d_pdf (s_doc s)) in *.
  destruct (build_fonts _ _ _ _) as [fs1 r1]. destruct r1 as [next|e| |]; try discriminate; [|injection H as <- <-; split; reflexivity].
  destruct (injectFonts _ _ _) as [[p1 idx]|e| |] eqn:Ef; try discriminate; [|injection H as <- <-; split; reflexivity].
  destruct (injectFonts_ids _ _ _ _ _ Ef) as [I1 R1]. clear Ef.
  set (new := flat_map _ (ch_ord ch [32] _ _)) in H. clearbody new.
  destruct (injectImgs _ _ _) as [[p4 names]|e| |] eqn:Ei; try discriminate; [|injection H as <- <-; split; [exact I1|exact R1]].
  destruct (injectImgs_ids _ _ _ _ _ Ei) as [I4 R4]. cbn [objs root] in I4, R4. clear Ei. rewrite !map_app in I4.
  assert (Keep : forall os5 rt b (st : state), map oid os5 = map oid (objs p4) -> rt = root p0 ->
    map oid (objs (d_pdf (s_doc st))) = map oid (objs p0) -> root (d_pdf (s_doc st)) = root p0 ->
    let st' := if b : bool then with_pdf st (mkPdf rt (firstn (List.length (objs p0)) os5)) else st in
    map oid (objs (d_pdf (s_doc st'))) = map oid (objs p0) /\ root (d_pdf (s_doc st')) = root p0).
  { intros os5 rt b st E5 Et Es Er. destruct b; cbn; [|auto]. split; [|congruence].
    rewrite <- firstn_map, E5, I4. rewrite I1. rewrite firstn_app. rewrite map_length, Nat.sub_diag. cbn. rewrite app_nil_r.
    rewrite <- (map_length oid (objs p0)). apply firstn_all. }
  set (s3 := with_imgs (with_pdf (with_fonts (with_fonts s fs1) _) p1) _) in H.
  set (b := match new ++ _ with [] => true | _ => ch_room ch end) in H. clearbody b.
  assert (R4' : root p4 = root p0) by congruence.
  destruct (Keep (objs p4) (root p4) b s3 eq_refl R4' I1 R1) as [K1 K2].
  destruct (injectContent _ _ _ _ _ _) as [p5|e| |] eqn:Ec; try discriminate.
  - destruct (injectContent_ids _ _ _ _ _ _ _ Ec) as [I5 R5]. clear Ec. assert (R5' : root p5 = root p0) by congruence.
    destruct (s_prot s) as [pr|].
    + apply bind_ok in H as (os & Eo & H). apply encrypt_all_ids in Eo.
      apply (f_equal (fun r => match r with Ok (a, _) => a | _ => s' end)) in H. cbv beta iota in H. rewrite <- H.
      apply (Keep os (root p5) b); [congruence|exact R5'|exact K1|exact K2].
    + apply (f_equal (fun r => match r with Ok (a, _) => a | _ => s' end)) in H. cbv beta iota in H. rewrite <- H.
      apply (Keep (objs p5) (root p5) b); [exact I5|exact R5'|exact K1|exact K2].
  - apply (f_equal (fun r => match r with Ok (a, _) => a | _ => s' end)) in H. cbv beta iota in H. rewrite <- H. split; [exact K1|exact K2].
Qed.

(** Numbers that were not used, larger than all before. *)
Definition fresh_after (old new : list Z) : Prop :=
  NoDup new /\ forall i, In i new -> 0 < i /\ forall j, In j old -> j < i.
Definition grows (p p' : pdf) : Prop :=
  root p' = root p /\ exists new, map oid (objs p') = map oid (objs p) ++ new /\ fresh_after (map oid (objs p)) new.

Lemma grows_refl : forall p p', map oid (objs p') = map oid (objs p) -> root p' = root p -> grows p p'.
Proof. intros p p' H R. split; [exact R|]. exists []. rewrite app_nil_r. split; [exact H|]. split; [constructor|intros i []]. Qed.
Lemma fresh_join : forall old a b, fresh_after old a -> fresh_after (old ++ a) b -> fresh_after old (a ++ b).
Proof.
  intros old a b [Da Fa] [Db Fb]. split.
  - apply nodup_join; auto. intros x Ha Hb. apply Fb in Hb as [_ Hb]. specialize (Hb x (in_or_app _ _ _ (or_intror Ha))). lia.
  - intros i Hi. apply in_app_or in Hi as [Hi|Hi]; [auto|]. apply Fb in Hi as [P Hi]. split; [exact P|].
    intros j Hj. apply Hi. apply in_or_app. auto.
Qed.
Lemma grows_trans : forall a b c, grows a b -> grows b c -> grows a c.
Proof.
  intros a b c [R1 (n & E1 & F1)] [R2 (m & E2 & F2)]. split; [congruence|]. exists (n ++ m). rewrite E2, E1, app_assoc. split; [reflexivity|].
  rewrite E1 in F2. apply fresh_join; auto.
Qed.
Lemma put_grows : forall p d, grows p (snd (putNewObject p d)).
Proof.
  intros p d. unfold putNewObject, put. cbn [snd]. split; [reflexivity|]. exists [maxID (objs p) + 1]. cbn [objs]. rewrite map_app. split; [reflexivity|].
  split; [constructor; [intros []|constructor]|]. intros i [<-|[]]. split; [pose proof (maxID_nonneg (objs p)); lia|].
  intros j Hj. apply in_map_iff in Hj as (o & <- & Ho). pose proof (maxID_ge _ _ Ho). lia.
Qed.
Lemma setPages_ids : forall p ids p', setPages p ids = Ok p' -> map oid (objs p') = map oid (objs p) /\ root p' = root p.
Proof.
  intros p ids p' H. unfold setPages in H. apply bind_ok in H as (ro & _ & H). apply bind_ok in H as (rps & _ & H).
  apply bind_ok in H as (pid & _ & H). apply bind_ok in H as (po & _ & H). apply bind_ok in H as (ps & _ & H).
  destruct (getPropByKey _ _); [|discriminate]. cbv zeta in H. destruct (getPropByKey _ _); [|discriminate].
  apply bind_ok in H as (os & E & H). assert (X : p' = mkPdf (root p) os) by congruence. rewrite X. split; [|reflexivity]. eapply setData_ids; exact E.
Qed.
Lemma settle_grows : forall q p ids p' e, grows q p -> settle p (setPages p ids) = Ok (p', e) -> grows q p'.
Proof.
  intros q p ids p' e G H. unfold settle in H. destruct (setPages p ids) as [p1| | |] eqn:E; try discriminate.
  - assert (p' = p1) by congruence. subst. apply setPages_ids in E as [I R]. eapply grows_trans; [exact G|]. apply grows_refl; auto.
  - assert (p' = p) by congruence. subst. exact G.
Qed.
Lemma page_grows : forall s o s' e, (forall p' e', o = Ok (p', e') -> grows (d_pdf (s_doc s)) p') -> page_call s o = Ok (s', e) ->
  grows (d_pdf (s_doc s)) (d_pdf (s_doc s')).
Proof.
  intros s o s' e G H. unfold page_call in H. destruct o as [[p q]| | |]; try discriminate.
  - assert (X : s' = with_pdf s p) by congruence. rewrite X. cbn. eauto.
  - unfold fails in H. assert (X : s' = s) by congruence. rewrite X. apply grows_refl; reflexivity.
Qed.
Lemma remove_grows : forall fuel p k p' e, removePage fuel p k = Ok (p', e) -> grows p p'.
Proof.
  intros fuel p k p' e H. unfold removePage in H. apply bind_ok in H as (ids & _ & H). cbv zeta in H.
  destruct (_ && _); [assert (p' = p) by congruence; subst; apply grows_refl; reflexivity|].
  apply bind_ok in H as (ids1 & _ & H). cbv beta in H. destruct (1 <=? _); [|discriminate].
  eapply settle_grows; [|exact H]. apply grows_refl; reflexivity.
Qed.
Lemma keep_grows : forall fuel p k p' e, removeOtherPages fuel p k = Ok (p', e) -> grows p p'.
Proof.
  intros fuel p k p' e H. unfold removeOtherPages in H. apply bind_ok in H as (ids & _ & H). cbv zeta in H.
  destruct (_ && _); [assert (p' = p) by congruence; subst; apply grows_refl; reflexivity|].
  apply bind_ok in H as (id & _ & H). cbv beta in H. eapply settle_grows; [|exact H]. apply grows_refl; reflexivity.
Qed.
Lemma duplicate_grows : forall fuel p k pos p' e, duplicatePageAfter fuel p k pos = Ok (p', e) -> grows p p'.
Proof.
  intros fuel p k pos p' e H. unfold duplicatePageAfter in H. apply bind_ok in H as (ids & _ & H). cbv zeta in H.
  destruct (_ && _); [assert (p' = p) by congruence; subst; apply grows_refl; reflexivity|].
  apply bind_ok in H as (id & _ & H). cbv beta in H.
  destruct (pageContents p id) as [[props co]| | |]; try discriminate; [|assert (p' = p) by congruence; subst; apply grows_refl; reflexivity].
  pose proof (put_grows p (odata co)) as G1. destruct (putNewObject p (odata co)) as [c p1]. cbn [snd] in G1.
  match type of H with context [putNewObject p1 ?d] => pose proof (put_grows p1 d) as G2; destruct (putNewObject p1 d) as [n p2] end. cbn [snd] in G2.
  apply bind_ok in H as (i1 & _ & H). apply bind_ok in H as (i2 & _ & H).
  eapply settle_grows; [|exact H]. eapply grows_trans; eauto.
Qed.
Lemma new_image_grows : forall w b i s s' e, new_image w b i s = Ok (s', e) -> grows (d_pdf (s_doc s)) (d_pdf (s_doc s')).
Proof.
  intros w b i s s' e H. unfold new_image in H. destruct (insertImgObj _ _ _ _ _ _) as [[p d]| | |] eqn:E; try discriminate.
  - unfold ok in H. assert (X : d_pdf (s_doc s') = p) by (apply (f_equal (fun r => match r with Ok (a, _) => d_pdf (s_doc a) | _ => p end)) in H; symmetry; exact H).
    rewrite X. unfold insertImgObj in E. apply bind_ok in E as (im & _ & E). destruct (createSMask im) as [m|].
    + pose proof (put_grows (d_pdf (s_doc s)) (image_object m)) as G. destruct (putNewObject _ _) as [id p']. cbn [snd] in G. assert (p = p') by congruence. subst. exact G.
    + assert (p = d_pdf (s_doc s)) by congruence. subst p. rewrite H0. apply grows_refl; reflexivity.
  - unfold fails in H. assert (X : s' = s) by congruence. rewrite X. apply grows_refl; reflexivity.
Qed.
Lemma same_pdf_grows : forall s s', d_pdf (s_doc s') = d_pdf (s_doc s) -> grows (d_pdf (s_doc s)) (d_pdf (s_doc s')).
Proof. intros s s' H. rewrite H. apply grows_refl; reflexivity. Qed.
Lemma place_doc : forall id pg x y w h s s' e, place_image id pg x y w h s = Ok (s', e) -> s_doc s' = s_doc s.
Proof.
  intros id pg x y w h s s' e H. unfold place_image in H. apply bind_ok in H as (ph & _ & H). unfold ok in H.
  apply (f_equal (fun r => match r with Ok (a, _) => s_doc a | _ => s_doc s end)) in H. symmetry. exact H.
Qed.
Lemma insert_text_doc : forall t pg x y w h al c s s' e, insert_text t pg x y w h al c s = Ok (s', e) -> s_doc s' = s_doc s.
Proof.
  intros t pg x y w h al c s s' e H. unfold insert_text in H. apply bind_ok in H as (ph & _ & H). cbv beta in H.
  destruct (lookup _ _) as [id|]; [|unfold fails in H; congruence]. destruct (nth_error _ id) as [f|]; [|discriminate].
  destruct (font_add f t) as [f' r]. cbv zeta in H.
  apply (f_equal (fun r => match r with Ok (a, _) => s_doc a | _ => s_doc s end)) in H. destruct r; symmetry; exact H.
Qed.
Lemma insert_lines_doc : forall ls pg x w h al c s s' e, insert_lines ls pg x w h al c s = Ok (s', e) -> s_doc s' = s_doc s.
Proof.
  induction ls as [|[t y] ls IH]; intros pg x w h al c s s' e H; cbn [insert_lines] in H; [unfold ok in H; congruence|].
  apply bind_ok in H as ([s1 e1] & E & H). cbn [fst snd] in H. apply insert_text_doc in E.
  destruct e1; [unfold fails in H; congruence|]. apply IH in H. congruence.
Qed.
Lemma wrap_doc : forall t pg x y w h al c b s s' e, insertWrapText t pg x y w h al c b s = Ok (s', e) -> s_doc s' = s_doc s.
Proof.
  intros t pg x y w h al c b s s' e H. unfold insertWrapText in H. destruct b as [b|]; [|eapply insert_text_doc; eauto].
  destruct (b t) as [toks| | |]; try discriminate; [|unfold fails in H; congruence].
  destruct (forallb _ toks); [unfold ok in H; congruence|].
  destruct (lookup _ _) as [id|]; [|discriminate]. destruct (nth_error _ id) as [f|]; [|discriminate].
  apply bind_ok in H as (ph & _ & H). cbv beta in H. destruct (wrap_lines _ _ _ _ _ _) as [f' r]. cbv zeta in H.
  destruct r; try discriminate.
  - apply insert_lines_doc in H. exact H.
  - apply (f_equal (fun r => match r with Ok (a, _) => s_doc a | _ => s_doc s end)) in H. symmetry; exact H.
Qed.
Lemma measure_doc : forall t s s' r, measureTextWidth t s = Ok (s', r) -> s_doc s' = s_doc s.
Proof.
  intros t s s' r H. unfold measureTextWidth in H. destruct (lookup _ _) as [id|]; [|discriminate].
  destruct (nth_error _ id) as [f|]; [|discriminate]. destruct (measure_text _ _ _) as [f' q].
  apply bind_ok in H as (ph & _ & H). cbv beta zeta in H.
  apply (f_equal (fun r => match r with Ok (a, _) => s_doc a | _ => s_doc s end)) in H. destruct q; symmetry; exact H.
Qed.
Lemma insertImg_grows : forall wd b i pg x y w h s s' e, insertImg wd b i pg x y w h s = Ok (s', e) -> grows (d_pdf (s_doc s)) (d_pdf (s_doc s')).
Proof.
  intros wd b i pg x y w h s s' e H. unfold insertImg in H. apply bind_ok in H as ([s1 e1] & E & H). cbn [fst snd] in H.
  apply new_image_grows in E. destruct e1; [unfold fails in H; assert (s' = s1) by congruence; subst; exact E|].
  apply place_doc in H. rewrite H. exact E.
Qed.

Definition is_open (c : call) : bool := match c with KOpen _ => true | _ => false end.
Lemma call_grows : forall w fuel c s s' e, is_open c = false -> call_of w fuel c s = Ok (s', e) -> grows (d_pdf (s_doc s)) (d_pdf (s_doc s')).
Proof.
  intros w fuel c s s' e A H.
  assert (D : forall t, s_doc t = s_doc s -> grows (d_pdf (s_doc s)) (d_pdf (s_doc t))) by (intros t X; rewrite X; apply grows_refl; reflexivity).
  destruct c; try discriminate; cbn [call_of] in H.
  - apply D. unfold addFont in H. destruct (lookup _ _); [unfold fails in H; congruence|].
    destruct (match file with Some d => parseTtf d | None => Err EOther end); try discriminate; [|unfold fails in H; congruence].
    destruct (s_names s); [|discriminate]. unfold ok in H.
    apply (f_equal (fun r => match r with Ok (a, _) => s_doc a | _ => s_doc s end)) in H. symmetry; exact H.
  - apply D. unfold textriseOverride in H. destruct (lookup _ _); [|unfold fails in H; congruence].
    apply (f_equal (fun r => match r with Ok (a, _) => s_doc a | _ => s_doc s end)) in H. symmetry; exact H.
  - apply D. unfold kernOverride in H. destruct (lookup _ _); [|unfold fails in H; congruence].
    apply (f_equal (fun r => match r with Ok (a, _) => s_doc a | _ => s_doc s end)) in H. symmetry; exact H.
  - apply D. unfold setFont in H. destruct (lookup _ _); [|unfold fails in H; congruence].
    apply (f_equal (fun r => match r with Ok (a, _) => s_doc a | _ => s_doc s end)) in H. symmetry; exact H.
  - apply D. eapply insert_text_doc; eauto.
  - apply D. eapply wrap_doc; eauto.
  - apply bind_ok in H as ([s1 r] & E & H). cbn [fst snd] in H. assert (s' = s1) by congruence. subst. apply D. eapply measure_doc; eauto.
  - eapply insertImg_grows; eauto.
  - unfold insertImgBase64 in H. destruct (w_base64 w b64); try discriminate; [eapply insertImg_grows; eauto|].
    apply D. unfold fails in H. congruence.
  - unfold insertImgWithCache in H. cbv zeta in H. destruct (lookup _ _) as [id|]; [apply D; eapply place_doc; eauto|].
    apply bind_ok in H as ([s1 e1] & E & H). cbn [fst snd] in H. apply new_image_grows in E.
    destruct e1; [unfold fails in H; assert (s' = s1) by congruence; subst; exact E|].
    destruct (s_cache s); [|discriminate]. apply place_doc in H. rewrite H. exact E.
  - apply D. apply (f_equal (fun r => match r with Ok (a, _) => s_doc a | _ => s_doc s end)) in H. symmetry; exact H.
  - eapply page_grows; [|exact H]. intros. eapply remove_grows; eauto.
  - eapply page_grows; [|exact H]. intros. eapply keep_grows; eauto.
  - eapply page_grows; [|exact H]. intros. eapply duplicate_grows; eauto.
  - apply D. unfold setProt in H. destruct (setProtection _ _ _ _); try discriminate; [|unfold fails in H; congruence].
    apply (f_equal (fun r => match r with Ok (a, _) => s_doc a | _ => s_doc s end)) in H. symmetry; exact H.
  - apply bind_ok in H as ([s1 r] & E & H). cbn [fst snd] in H. assert (s' = s1) by congruence. subst.
    apply save_keeps_ids in E as [I R]. apply grows_refl; auto.
Qed.
Lemma history_grows : forall w fuel cs s s' log, forallb (fun c => negb (is_open c)) cs = true -> history w fuel cs s = Ok (s', log) ->
  grows (d_pdf (s_doc s)) (d_pdf (s_doc s')).
Proof.
  induction cs as [|c cs IH]; intros s s' log A H; cbn [history forallb] in *.
  - assert (s' = s) by congruence. subst. apply grows_refl; reflexivity.
  - apply andb_true_iff in A as [A1 A2]. apply bind_ok in H as ([s1 e] & E & H). cbn [fst snd] in H.
    apply bind_ok in H as ([s2 l2] & E2 & H). cbn [fst snd] in H. assert (s' = s2) by congruence. subst.
    eapply grows_trans; [eapply call_grows; [|exact E]; destruct (is_open c); auto; discriminate|eauto].
Qed.
