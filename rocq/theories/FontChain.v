(** The objects of one font refer to each other. *)
From Coq Require Import String List ZArith Lia Bool Permutation.
From Verif Require Import Base BaseProofs Output PdfSyntax PdfSyntaxProofs Ttf TtfSpec Subset CharMap FontObjects FontFinal FontChainSpec Api CrawlVisits ApiIds.
Open Scope Z_scope.
Open Scope list_scope.

Definition unbuilt (f : font) : Prop := fd_bufs f = ([], [], [], [], []).

Lemma the_object_nth : forall os n o, nth_error os n = Some o -> NoDup (map oid os) -> the_object os (oid o) o.
Proof.
  intros os n o H ND. destruct (nth_error_split os n H) as (a & b & -> & _). exists a, b. split; [reflexivity|]. split; [reflexivity|].
  intros q Hq E. rewrite map_app in ND. cbn [map] in ND. apply NoDup_remove_2 in ND. apply ND. rewrite <- map_app, <- E. apply in_map. exact Hq.
Qed.

Lemma five_distinct : forall a, NoDup [a; a + 1; a + 2; a + 3; a + 4].
Proof. intros a. repeat (constructor; [cbn [In]; lia|]). constructor. Qed.

Lemma font_embedded : forall w f start f', font_build w f start = Ok f' -> unbuilt f -> plain_name (fd_family f) -> map_ok (fd_map f) ->
  fd_id f' = start + 1 /\ fd_family f' = fd_family f /\ fd_ttf f' = fd_ttf f /\ fd_map f' = fd_map f /\
  exists ws p s, Forall2 (fun g x => glyph_width (fd_ttf f) g = Ok x) (map snd (fd_map f)) ws /\
    make_font (fd_ttf f) (fd_beyond f) (fd_map f) = Ok p /\
    bfranges s (Z.of_nat (List.length (fd_map f))) (map (fun x => (snd x, snd x, rune_by_index (fd_map f) (snd x))) (fd_map f)) /\
    embedded_font (font_objs f') (start + 1) (plus_name (fd_family f)) (w_items (fd_ttf f) (combine (map snd (fd_map f)) ws)) s (w_compress w p) (blen p).
Proof.
  intros w f start f' H U P M. unfold font_build in H. apply bind_ok in H as (cid & C & H). apply bind_ok in H as (di & D & H). rewrite U in H.
  injection H as <-. cbn [fd_id fd_family fd_ttf fd_map]. repeat (split; [reflexivity|]).
  destruct (cid_obj_reads _ _ _ _ _ P C) as (ws & W & R2). destruct (dict_obj_reads _ _ _ _ _ D) as (p & Mk & R5). destruct (unicode_reads _ M) as (s & R3 & Bf).
  exists ws, p, s. split; [exact W|]. split; [exact Mk|]. split; [exact Bf|].
  unfold font_objs. cbn [fd_bufs fd_id app]. set (os := [_; _; _; _; _]).
  assert (ND : NoDup (map oid os)) by apply five_distinct.
  exists (start + 2), (start + 3), (start + 4), (start + 5). do 5 eexists.
  assert (T : forall n o id, nth_error os n = Some o -> id = oid o -> the_object os id o) by (intros n o id E ->; exact (the_object_nth os n o E ND)).
  split. { eexists. exists [10]. split; [apply (T 0%nat); reflexivity|apply font_obj_reads; exact P]. }
  repeat (split; [reflexivity|]).
  split. { eexists. exists [10]. split; [apply (T 1%nat); [reflexivity|cbn [oid]; lia]|exact R2]. }
  repeat (split; [reflexivity|]).
  split. { eexists. split; [apply (T 2%nat); [reflexivity|cbn [oid]; lia]|exact R3]. }
  repeat (split; [reflexivity|]).
  split. { eexists. exists [10]. split; [apply (T 3%nat); [reflexivity|cbn [oid]; lia]|apply desc_obj_reads; exact P]. }
  repeat (split; [reflexivity|]).
  split. { eexists. split; [apply (T 4%nat); [reflexivity|cbn [oid]; lia]|exact R5]. }
  split; reflexivity.
Qed.

(** ** Among other objects *)
Definition apart (os os' : list obj) : Prop := forall o, In o os' -> ~ In (oid o) (map oid os).
Lemma object_among : forall a os b id o, apart os (a ++ b) -> the_object os id o -> the_object (a ++ os ++ b) id o.
Proof.
  intros a os b id o A (x & y & -> & E & U). exists (a ++ x), (y ++ b). split; [rewrite <- !app_assoc; reflexivity|]. split; [exact E|].
  intros q Hq Eq. assert (Ex : In (oid q) (map oid (x ++ o :: y))) by (rewrite map_app; apply in_or_app; right; left; congruence).
  rewrite <- app_assoc in Hq. apply in_app_or in Hq. destruct Hq as [Hq|Hq]; [apply (A q); [apply in_or_app; auto|exact Ex]|].
  rewrite app_assoc in Hq. apply in_app_or in Hq. destruct Hq as [Hq|Hq]; [exact (U q Hq Eq)|apply (A q); [apply in_or_app; auto|exact Ex]].
Qed.
Lemma embedded_among : forall a os b id base ws uni prog len, apart os (a ++ b) ->
  embedded_font os id base ws uni prog len -> embedded_font (a ++ os ++ b) id base ws uni prog len.
Proof.
  intros a os b id base ws uni prog len A (cid & u & desc & file & d1 & d2 & d3 & d4 & d5 & H).
  assert (D : forall i d, the_dict os i d -> the_dict (a ++ os ++ b) i d).
  { intros i d (o & r & T & R). exists o, r. split; [apply object_among; assumption|exact R]. }
  assert (S : forall i d y, the_stream os i d y -> the_stream (a ++ os ++ b) i d y).
  { intros i d y (o & T & R). exists o. split; [apply object_among; assumption|exact R]. }
  exists cid, u, desc, file, d1, d2, d3, d4, d5. intuition auto.
Qed.

(** ** All fonts of a save *)
Definition embeds (w : world) (os : list obj) (f : font) (id : Z) : Prop :=
  exists ws p s, Forall2 (fun g x => glyph_width (fd_ttf f) g = Ok x) (map snd (fd_map f)) ws /\
    make_font (fd_ttf f) (fd_beyond f) (fd_map f) = Ok p /\
    bfranges s (Z.of_nat (List.length (fd_map f))) (map (fun x => (snd x, snd x, rune_by_index (fd_map f) (snd x))) (fd_map f)) /\
    embedded_font os id (plus_name (fd_family f)) (w_items (fd_ttf f) (combine (map snd (fd_map f)) ws)) s (w_compress w p) (blen p).
Definition buildable (f : font) : Prop := unbuilt f /\ plain_name (fd_family f) /\ map_ok (fd_map f).

Lemma build_fonts_each : forall w ids fs n fs' m, build_fonts w ids fs n = (fs', Ok m) -> NoDup ids -> forall k, In k ids ->
  exists f f' start, nth_error fs k = Some f /\ nth_error fs' k = Some f' /\ font_build w f start = Ok f'.
Proof.
  induction ids as [|i ids IH]; intros fs n fs' m H N k Hk; [destruct Hk|]. cbn [build_fonts] in H.
  destruct (nth_error fs i) as [f|] eqn:E; [|congruence]. destruct (font_build w f (n + 1)) as [f'| | |] eqn:F; try congruence.
  apply NoDup_cons_iff in N as (N1 & N2). destruct Hk as [<-|Hk].
  - exists f, f', (n + 1). split; [exact E|]. split; [|exact F]. rewrite (build_fonts_other _ _ _ _ _ _ _ H N1), nth_set, E. reflexivity.
  - destruct (IH _ _ _ _ H N2 k Hk) as (g & g' & st & A & C & D). exists g, g', st. split; [|auto].
    rewrite nth_set_other in A by (intros ->; contradiction). exact A.
Qed.

Definition objs_at (fs : list font) (k : nat) : list obj := match nth_error fs k with Some f => font_objs f | None => [] end.
Lemma objs_at_ids : forall fs k, map oid (objs_at fs k) = ids_at fs k.
Proof. intros fs k. unfold objs_at, ids_at. destruct (nth_error fs k); [apply font_objs_ids|reflexivity]. Qed.
Lemma objs_ids : forall fs l, map oid (flat_map (objs_at fs) l) = flat_map (ids_at fs) l.
Proof. induction l as [|k l IH]; [reflexivity|]. cbn [flat_map]. rewrite map_app, objs_at_ids, IH. reflexivity. Qed.

Lemma nodup_apart : forall a os b, NoDup (map oid (a ++ os ++ b)) -> apart os (a ++ b).
Proof.
  intros a os b N o Ho Hi. rewrite !map_app in N. apply in_map_iff in Hi. destruct Hi as (q & Eq & Hq).
  apply in_split in Hq. destruct Hq as (x & y & ->).
  assert (E : map oid a ++ map oid (x ++ q :: y) ++ map oid b = (map oid a ++ map oid x) ++ oid q :: (map oid y ++ map oid b)).
  { rewrite !map_app. cbn [map]. rewrite <- !app_assoc. reflexivity. }
  rewrite E in N. apply NoDup_remove_2 in N. apply N. rewrite Eq. apply in_app_or in Ho. rewrite !in_app_iff.
  destruct Ho as [Ho|Ho]; apply (in_map oid) in Ho; auto.
Qed.

Lemma fonts_embedded : forall w ids fs n fs' m old more, build_fonts w ids fs n = (fs', Ok m) -> NoDup ids ->
  NoDup (map oid (old ++ more)) -> (forall o, In o old -> oid o <= n) -> (forall o, In o more -> m < oid o) ->
  forall k f, In k ids -> nth_error fs k = Some f -> buildable f -> forall ids', Permutation ids' ids ->
  exists f', nth_error fs' k = Some f' /\ n < fd_id f' /\ embeds w (old ++ flat_map (objs_at fs') ids' ++ more) f (fd_id f').
Proof.
  intros w ids fs n fs' m old more H N ND Lo Hi k f Hk Hf (U & P & M) ids' Pm.
  destruct (build_fonts_ids _ _ _ _ _ _ H N) as (Le & Nd & Fo & Ex).
  destruct (build_fonts_each _ _ _ _ _ _ H N k Hk) as (g & f' & st & E1 & E2 & E3). rewrite Hf in E1. injection E1 as <-.
  destruct (font_embedded _ _ _ _ E3 U P M) as (Ei & _ & _ & _ & ws & p & s & A1 & A2 & A3 & A4). rewrite <- Ei in A4.
  exists f'. split; [exact E2|].
  assert (Ik : In (fd_id f') (flat_map (ids_at fs') ids)).
  { apply in_flat_map. exists k. split; [exact Hk|]. unfold ids_at. rewrite E2. left. reflexivity. }
  split; [rewrite Forall_forall in Fo; apply Fo in Ik; lia|].
  exists ws, p, s. split; [exact A1|]. split; [exact A2|]. split; [exact A3|].
  assert (Pf : Permutation (flat_map (ids_at fs') ids') (flat_map (ids_at fs') ids)) by (apply Permutation_flat_map; exact Pm).
  assert (NF : NoDup (map oid (old ++ flat_map (objs_at fs') ids' ++ more))).
  { rewrite !map_app, objs_ids. rewrite Forall_forall in Fo.
    assert (R : forall i, In i (flat_map (ids_at fs') ids') -> n < i <= m) by (intros i X; apply Fo; eapply Permutation_in; eassumption).
    rewrite map_app in ND. assert (N1 : NoDup (map oid old)) by (eapply NoDup_app_l; exact ND).
    assert (N2 : NoDup (map oid more)).
    { clear - ND. induction (map oid old) as [|x l IH]; [exact ND|]. apply IH. inversion ND; assumption. }
    apply nodup_join; [exact N1| |].
    - apply nodup_join; [eapply Permutation_NoDup; [symmetry; exact Pf|exact Nd]|exact N2|].
      intros i X Y. apply R in X. apply in_map_iff in Y. destruct Y as (o & <- & Y). apply Hi in Y. lia.
    - intros i X Y. apply in_map_iff in X. destruct X as (o & <- & X). apply Lo in X. apply in_app_or in Y. destruct Y as [Y|Y]; [apply R in Y; lia|].
      apply in_map_iff in Y. destruct Y as (q & Eq & Y). apply Hi in Y. lia. }
  assert (Hk' : In k ids') by (eapply Permutation_in; [symmetry; exact Pm|exact Hk]).
  apply in_split in Hk'. destruct Hk' as (x & y & ->). rewrite flat_map_app in *. cbn [flat_map] in *.
  assert (Eo : objs_at fs' k = font_objs f') by (unfold objs_at; rewrite E2; reflexivity). rewrite Eo in *.
  replace (old ++ (flat_map (objs_at fs') x ++ font_objs f' ++ flat_map (objs_at fs') y) ++ more)
    with ((old ++ flat_map (objs_at fs') x) ++ font_objs f' ++ (flat_map (objs_at fs') y ++ more)) in * by (rewrite <- !app_assoc; reflexivity).
  apply embedded_among; [apply nodup_apart; exact NF|exact A4].
Qed.
