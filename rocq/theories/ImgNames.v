(** Names given to inserted images, in any document. *)
From Coq Require Import String List ZArith Lia Bool Permutation.
From Verif Require Import Base BaseProofs Output Props PdfData Crawl Inject InjectNames.
Open Scope Z_scope.
Open Scope list_scope.

Definition xo_name (x : xobj) : bytes := xo_char x ++ itoa (xo_index x).

Lemma newx_length : forall imgs ch idx, List.length (newXobjs imgs ch idx) = List.length imgs.
Proof. induction imgs as [|i imgs IH]; intros ch idx; [reflexivity|]. cbn [newXobjs List.length]. now rewrite IH. Qed.
Lemma newx_char : forall imgs ch idx x, In x (newXobjs imgs ch idx) -> xo_char x = ch /\ idx < xo_index x /\ In (xo_obj x) imgs.
Proof.
  induction imgs as [|i imgs IH]; intros ch idx x H; [destruct H|]. cbn [newXobjs] in H. destruct H as [<-|H].
  - cbn. split; [auto|split; [lia|auto]].
  - destruct (IH _ _ _ H) as (A & C & D). split; [auto|split; [lia|right; auto]].
Qed.
Lemma newx_nodup : forall imgs ch idx, NoDup (map xo_name (newXobjs imgs ch idx)).
Proof.
  induction imgs as [|i imgs IH]; intros ch idx; cbn [newXobjs map]; constructor; [|auto].
  rewrite in_map_iff. intros (x & E & H). apply newx_char in H. destruct H as (C & L & _). unfold xo_name in E. cbn [xo_char xo_index] in E.
  rewrite C in E. apply app_inv_head in E. apply itoa_inj in E. lia.
Qed.
Lemma newx_pairs : forall imgs ch idx, Forall2 (fun i x => xo_obj x = i) imgs (newXobjs imgs ch idx).
Proof. induction imgs as [|i imgs IH]; intros ch idx; cbn [newXobjs]; constructor; auto. Qed.

Lemma names_text : forall xs, map (fun n : bytes * Z => fst n ++ itoa (snd n)) (map (fun x => (xo_char x, xo_index x)) xs) = map xo_name xs.
Proof. intros. rewrite map_map. reflexivity. Qed.

(** Every successful run in its steps. *)
Record iran (ord : morder) (p p' : pdf) (imgs : list Z) (names : list (bytes * Z))
    (rsRes cw1 cw : results) (rx : Z) (embed : bool) (vals : list (Z * bytes)) (old : list xobj) (ch : bytes) (idx : Z) (must : list (Z * bytes)) : Prop := {
  ir_res : getPageCrawl ord [11] (objs p) (root p) [B"Kids"; B"Resources"] = Ok rsRes;
  ir_first : firstResources (ord [12] _ rsRes) = Ok (Some (rx, embed));
  ir_cw1 : crawl_checked (objs p) rx [B"XObject"] = Ok cw1;
  ir_cw : match xobjectVals cw1 with
          | [] => getPageCrawl ord [13] (objs p) (root p) [B"Kids"; B"Resources"; B"XObject"] = Ok cw
          | _ => cw = cw1
          end;
  ir_vals : vals = xobjectVals cw;
  ir_scan : scanXobjs (ord [14] _ vals) [] (B"I") 0 = (old, ch, idx);
  ir_must : match vals with
            | _ :: _ => must = imgReplacesFound (old ++ newXobjs imgs ch idx) cw
            | [] =>
              if embed then exists cw01, crawl_checked (objs p) (root p) [B"Pages"; B"Kids"; B"Resources"] = Ok cw01 /\
                imgReplacesEmbed (old ++ newXobjs imgs ch idx) (ord [15] _ cw01) = Ok must
              else must = imgReplacesPlain (old ++ newXobjs imgs ch idx) cw
            end;
  ir_objs : replaceAll dictwrap (ord [16] _ must) (objs p) = Ok (objs p');
  ir_root : root p' = root p;
  ir_names : names = map (fun x => (xo_char x, xo_index x)) (newXobjs imgs ch idx) }.

Lemma injectImgs_ran : forall ord p p' imgs names, injectImgs ord p imgs = Ok (p', names) ->
  exists rsRes cw1 cw rx embed vals old ch idx must, iran ord p p' imgs names rsRes cw1 cw rx embed vals old ch idx must.
Proof.
  intros ord p p' imgs names H. unfold injectImgs in H. destruct p as [rt os]. cbn [objs root] in H.
  destruct (getPageCrawl ord [11] os rt [B"Kids"; B"Resources"]) as [rsRes| | |] eqn:E1; cbn [bind] in H; try discriminate.
  destruct (firstResources (ord [12] _ rsRes)) as [[[rx embed]|]| | |] eqn:E2; cbn [bind] in H; try discriminate.
  destruct (crawl_checked os rx [B"XObject"]) as [cw1| | |] eqn:E3; cbn [bind] in H; try discriminate.
  destruct (match xobjectVals cw1 with [] => _ | _ => _ end) as [[cw vals]| | |] eqn:E4; cbn [bind] in H; try discriminate.
  assert (Ev : vals = xobjectVals cw /\ match xobjectVals cw1 with
      [] => getPageCrawl ord [13] os rt [B"Kids"; B"Resources"; B"XObject"] = Ok cw | _ => cw = cw1 end).
  { destruct (xobjectVals cw1) eqn:V1.
    - destruct (getPageCrawl ord [13] os rt _) as [c| | |]; cbn [bind] in E4; try discriminate. inversion E4; subst. auto.
    - inversion E4; subst. auto. }
  destruct Ev as (Ev & Ec). destruct (scanXobjs (ord [14] _ vals) [] (B"I") 0) as [[old ch] idx] eqn:Es.
  destruct (match vals with [] => _ | _ => _ end) as [must| | |] eqn:E5; cbn [bind] in H; try discriminate.
  destruct (replaceAll dictwrap (ord [16] _ must) os) as [os'| | |] eqn:E6; cbn [bind] in H; try discriminate.
  inversion H; subst p' names. exists rsRes, cw1, cw, rx, embed, vals, old, ch, idx, must. constructor; cbn [objs root]; auto.
  destruct vals as [|v0 vals'].
  - destruct embed; [|inversion E5; auto]. destruct (crawl_checked os rt _) as [c| | |]; cbn [bind] in E5; try discriminate. exists c. auto.
  - inversion E5; auto.
Qed.

Theorem image_names : forall ord p p' imgs names, injectImgs ord p imgs = Ok (p', names) ->
  List.length names = List.length imgs /\ NoDup (map (fun n : bytes * Z => fst n ++ itoa (snd n)) names).
Proof.
  intros ord p p' imgs names H. destruct (injectImgs_ran _ _ _ _ _ H) as (rsRes & cw1 & cw & rx & embed & vals & old & ch & idx & must & R).
  destruct R as [_ _ _ _ _ _ _ _ _ ->]. rewrite map_length, newx_length. split; [reflexivity|]. rewrite names_text. apply newx_nodup.
Qed.
