(** What getPageCrawl collects. *)
From Coq Require Import String List ZArith Lia Bool Permutation.
From Verif Require Import Base BaseProofs Output Props PdfData Crawl CrawlProofs CrawlVisits.
Open Scope Z_scope.
Open Scope list_scope.

(** Items [l] are collected for object [id], in the crawl from the catalog or in
    one of those from a node found there that looks like an inner one. *)
Inductive seen (os : list obj) (root : Z) (path : list bytes) : Z -> list item -> Prop :=
| seen_first : forall id, vis id (crawl_from os root (B"Pages" :: path)) = true ->
    seen os root path id (collect os id (crawl_from os root (B"Pages" :: path)))
| seen_again : forall k l0 id, vis k (crawl_from os root (B"Pages" :: path)) = true -> seen os root path k l0 ->
    is_inner l0 = true -> vis id (crawl_from os k path) = true -> seen os root path id (collect os id (crawl_from os k path)).

Definition all_smooth (os : list obj) (root : Z) (path : list bytes) : Prop :=
  smooth os root (B"Pages" :: path) /\
  forall k l, vis k (crawl_from os root (B"Pages" :: path)) = true -> seen os root path k l -> is_inner l = true -> smooth os k path.

Lemma merge_get : forall sub m id, NoDup (map fst sub) ->
  map_get (merge_all sub m) id = match map_get sub id with Some v => Some v | None => map_get m id end.
Proof.
  induction sub as [|[k v] sub IH]; intros m id N; cbn [merge_all map_get]; [reflexivity|].
  cbn [map fst] in N. inversion N; subst. rewrite IH, get_set by auto.
  destruct (Z.eqb_spec id k) as [->|]; [|reflexivity].
  destruct (map_get sub k) eqn:E; [|reflexivity]. exfalso. apply H1. apply get_in in E. apply (in_map fst) in E. exact E.
Qed.

Lemma merge_nodup : forall sub m, NoDup (map fst m) -> NoDup (map fst (merge_all sub m)).
Proof. induction sub as [|[k v] sub IH]; intros m N; cbn [merge_all]; auto. apply IH. apply nodup_set. auto. Qed.

Lemma get_key : forall A (m : list (Z * A)) k, In k (map fst m) <-> exists v, map_get m k = Some v.
Proof. intros. rewrite <- mem_in. apply mem_get. Qed.

Record stage (os : list obj) (root : Z) (path : list bytes) (done : list Z) (m : results) : Prop := {
  st_nodup : NoDup (map fst m);
  st_sound : forall id l, map_get m id = Some l -> seen os root path id l;
  st_first : forall id, vis id (crawl_from os root (B"Pages" :: path)) = true -> In id (map fst m);
  st_done : forall k id, In k done -> (forall l, seen os root path k l -> is_inner l = true) ->
    vis id (crawl_from os k path) = true -> In id (map fst m) }.

Lemma loop_stage : forall os root path, all_smooth os root path -> forall queue done m,
  (forall k, In k queue -> vis k (crawl_from os root (B"Pages" :: path)) = true) ->
  stage os root path done m ->
  exists m', page_crawl_loop os path queue m = Ok m' /\ stage os root path (done ++ queue) m'.
Proof.
  intros os root path (S0 & S1). induction queue as [|k queue IH]; intros done m Q St.
  - exists m. rewrite app_nil_r. split; auto.
  - cbn [page_crawl_loop]. assert (Hk : vis k (crawl_from os root (B"Pages" :: path)) = true) by (apply Q; left; auto).
    destruct St as [N So Fi Do]. destruct (proj1 (get_key _ m k) (Fi k Hk)) as (l & G). rewrite G.
    pose proof (So k l G) as Sq.
    replace (done ++ k :: queue) with ((done ++ [k]) ++ queue) by (rewrite <- app_assoc; reflexivity).
    destruct (is_inner l) eqn:Ei.
    + destruct (crawl_walk os k path (S1 k l Hk Sq Ei)) as (sub & Es & Ns & Gs). rewrite Es.
      apply IH; [intros; apply Q; right; auto|]. constructor.
      * apply merge_nodup. auto.
      * intros id l' H. rewrite merge_get, Gs in H by auto. destruct (vis id (crawl_from os k path)) eqn:E.
        -- inversion H; subst l'. eapply seen_again; eauto.
        -- apply So; auto.
      * intros id H. apply get_key. rewrite merge_get, Gs by auto. destruct (vis id (crawl_from os k path)); [eauto|].
        apply get_key. apply Fi. auto.
      * intros k' id H A B'. apply get_key. rewrite merge_get, Gs by auto.
        destruct (vis id (crawl_from os k path)) eqn:E; [eauto|].
        apply in_app_or in H. destruct H as [H|[<-|[]]]; [apply get_key; eapply Do; eauto|congruence].
    + apply IH; [intros; apply Q; right; auto|]. constructor; auto.
      intros k' id H A B'. apply in_app_or in H. destruct H as [H|[<-|[]]]; [eapply Do; eauto|].
      specialize (A l Sq). congruence.
Qed.

Theorem page_crawl : forall ord t os root path, fair ord -> all_smooth os root path ->
  exists m, getPageCrawl ord t os root path = Ok m /\
    stage os root path (map fst (crawl_from os root (B"Pages" :: path))) m.
Proof.
  intros ord t os root path Fr A. pose proof A as (S0 & S1). unfold getPageCrawl.
  destruct (crawl_walk os root _ S0) as (m0 & E0 & N0 & G0). rewrite E0.
  set (V := crawl_from os root (B"Pages" :: path)) in *.
  assert (K0 : forall k, In k (map fst m0) <-> vis k V = true).
  { intros k. rewrite get_key, G0. destruct (vis k V); split; eauto; [|discriminate]. intros (v & H). discriminate. }
  assert (P : Permutation (map fst (ord t (list item) m0)) (map fst m0)) by (apply Permutation_map; apply Fr).
  destruct (loop_stage os root path A (map fst (ord t _ m0)) [] m0) as (m & E & St).
  - intros k Hk. apply K0. eapply Permutation_in; [exact P|exact Hk].
  - constructor; auto.
    + intros id l H. rewrite G0 in H. destruct (vis id V) eqn:Ev; [|discriminate]. inversion H; subst. apply seen_first; auto.
    + intros id H. apply K0. auto.
    + intros k id [].
  - exists m. split; [exact E|]. destruct St as [Sa Sb Sc Sd]. constructor; auto.
    intros k id Hk. apply Sd. cbn [app]. eapply Permutation_in; [apply Permutation_sym; exact P|]. apply K0. apply vis_in. exact Hk.
Qed.

(** An object for which the same items are collected every time has these. *)
Lemma stage_get : forall os root path done m id l, stage os root path done m -> In id (map fst m) ->
  (forall l', seen os root path id l' -> l' = l) -> map_get m id = Some l.
Proof.
  intros os root path done m id l [N So Fi Do] H U. apply get_key in H. destruct H as (l' & G). rewrite G.
  rewrite (U l' (So id l' G)). reflexivity.
Qed.
