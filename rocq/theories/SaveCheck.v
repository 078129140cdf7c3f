(** Deciding the conditions of C72 on a given document, and the common part of
    the examples. *)
From Coq Require Import String List ZArith Lia Bool Permutation.
From Coq.Floats Require Import SpecFloat.
From Verif Require Import Base BaseProofs Output OutputSpec Props PropsSpec PdfData PagesSpec PagesProofs PagesEdit Crawl Inject InjectSpec InjectMaps InjectVisits InjectPages InjectFonts InjectFinal InjectCheck
  ContentSpec ContentProofs ContentFinal ImgSpec ImgCrawl ImgLists ImgPages ImgFinal InjectCases ImgCases Float64 Ttf TtfSpec CharMap Subset Text Wrap FontObjects FontChainSpec FontChain Parse Api ApiIds TestFont ApiCases SaveSpec SaveFrame SaveFonts SaveDoc SaveWhole.
Open Scope Z_scope.
Open Scope list_scope.

Notation fonts_in := (place_of (B"Font")).
Notation images_in := (place_of XO).

Definition writesb (os : list obj) (ids : list Z) (L : Z) : bool :=
  match offered (fonts_in os L) with
  | None => true
  | Some fps => pageb (B"Font") os L && writableb (B"Font") os ids L && forallb (fun q => negb (contains (B"Pages") (pkey q))) fps
  end.
Definition readyb (p : pdf) (rid : Z) (ts : list tree) : bool :=
  tidyb (B"Font") p rid ts && tidyb XO p rid ts && bareb p rid && treeb 5 p (Node rid ts) && forallb (writesb (objs p) (flat_map leaves ts)) (flat_map leaves ts).
Lemma ready_check : forall p rid ts, readyb p rid ts = true -> pictures p rid ts (images_in (objs p)) ->
  ready_document p rid ts (fonts_in (objs p)) (images_in (objs p)).
Proof.
  intros p rid ts H P. unfold readyb in H. rewrite !andb_true_iff in H. destruct H as ((((H1 & H2) & H3) & H4) & H5). rewrite forallb_forall in H5. constructor.
  - apply tidyb_tidy. exact H1.
  - apply tidyb_tidy. exact H2.
  - apply bareb_bare. exact H3.
  - apply (treeb_tree 5). exact H4.
  - intros L HL O'. specialize (H5 L HL). unfold writesb in H5. destruct (offered _); [|congruence]. rewrite !andb_true_iff in H5. destruct H5 as ((A & C) & _). apply writableb_is; assumption.
  - intros L fps q a c HL O' Hq E. specialize (H5 L HL). unfold writesb in H5. rewrite O' in H5. rewrite !andb_true_iff in H5. destruct H5 as (_ & C). rewrite forallb_forall in C. specialize (C q Hq).
    apply negb_true_iff in C. apply (proj1 (contains_false _ _) C (List.length a)). exists a, c. auto.
  - exact P.
Qed.

Definition apartb (p : pdf) (rid : Z) (ts : list tree) (cids : list Z) : bool :=
  forallb (fun c => negb (existsb (Z.eqb c) ((root p :: rid :: flat_map tree_ids ts) ++ flat_map (fun L => page_objects L (fonts_in (objs p) L)) (flat_map leaves ts)))) cids.
Lemma apart_check : forall p rid ts cids, apartb p rid ts cids = true -> forall c, In c cids ->
  ~ In c (root p :: rid :: flat_map tree_ids ts) /\ ~ page_object (flat_map leaves ts) (fonts_in (objs p)) c.
Proof.
  intros p rid ts cids H c Hc. unfold apartb in H. rewrite forallb_forall in H. specialize (H c Hc). apply negb_true_iff in H. rewrite existsb_app in H. apply orb_false_iff in H as (H1 & H2).
  assert (N : forall l, existsb (Z.eqb c) l = false -> ~ In c l).
  { intros l E X. assert (existsb (Z.eqb c) l = true) by (apply existsb_exists; exists c; split; [exact X|apply Z.eqb_refl]). congruence. }
  split; [apply N; exact H1|]. intros (L & HL & Hp). apply (N _ H2). apply in_flat_map. exists L. auto.
Qed.

(** ** Two pages to which a text and an image are added *)
Notation leaves35 := [Leaf 3; Leaf 5].
Definition text_ops : bytes := B"[] 0 d" ++ [10] ++ B"0.00 w" ++ [10] ++ B"BT" ++ [10] ++ B"10.00 80.00 TD" ++ [10] ++ B"/F2 12 Tf" ++ [10] ++
  B"0.00 0.00 0.00 rg" ++ [10] ++ B"[<00010002>] TJ" ++ [10] ++ B"ET" ++ [10; 13; 10].
Definition two_pages (r3 r5 : bytes) (more : list obj) : list obj :=
  [mkObj 1 (B"<</Type/Catalog/Pages 2 0 R>>"); mkObj 2 (B"<</Type/Pages/Count 2/Kids[3 0 R 5 0 R]>>");
   mkObj 3 (B"<</Type/Page/Parent 2 0 R/MediaBox[0 0 50 100]/Resources" ++ r3 ++ B"/Contents 4 0 R>>");
   mkObj 4 (content_object (B"q Q ")); mkObj 5 (B"<</Type/Page/Parent 2 0 R/MediaBox[0 0 50 200]/Resources" ++ r5 ++ B"/Contents 6 0 R>>");
   mkObj 6 (content_object (B"n "))] ++ more.
Definition calls_on (os : list obj) (max : Z) : list call :=
  [KOpen (toStream os max 1 None); KAddFont (B"T") (Some test_font) [0; 0; 0; 0]; KSetFont (B"T") [] 12; put_text (B"AB"); put_img [1] 2].
Definition doc_of (os : list obj) : pdf := mkPdf 1 (map (fun o => mkObj (oid o) ([10] ++ odata o ++ [10])) os).
Definition state_after (cs : list call) : state := match after cs with Ok s => s | _ => new_pdft end.
Definition saved_after (cs : list call) : state * bytes := match saveTo plain_world 5 (plain_choices false) (state_after cs) with Ok (s', Ok F) => (s', F) | _ => (new_pdft, []) end.
Definition shared_srcs : list (option (Z * bytes)) := [Some (4, B"q Q "); Some (6, B"n ")].

(** What the calls leave, and what the save leaves. *)
Definition runs (cs : list call) (doc : pdf) (fid : Z) (c : bytes) (m : Z) (iops : bytes) : Prop :=
  exists s s' F f i, after cs = Ok s /\ saveTo plain_world 5 (plain_choices false) s = Ok (s', Ok F) /\
  d_pdf (s_doc s) = doc /\ s_prot s = None /\ names_of s = [(B"T", 0%nat)] /\ (blen F <? 10 ^ 10) = true /\
  nth_error (s_fonts s) 0 = Some f /\ buildable f /\ fd_map f = [(65, 1); (66, 2)] /\ nth_error (s_imgs s) 0 = Some i /\
  option_map (fun f => (fd_index f, fd_id f)) (nth_error (s_fonts s') 0) = Some (2, fid) /\
  option_map (fun i => (im_char i, im_index i)) (nth_error (s_imgs s') 0) = Some (c, m) /\
  exists o1 o2, map (content_of (s_fonts s') (s_imgs s')) (s_cont s) = calls [(1, o1); (1, o2); (2, iops)] /\ o1 ++ o2 = text_ops.
Ltac run_it cs :=
  exists (state_after cs), (fst (saved_after cs)), (snd (saved_after cs)); eexists; eexists;
  split; [vm_compute; reflexivity|]; split; [vm_compute; reflexivity|]; split; [vm_compute; reflexivity|]; split; [vm_compute; reflexivity|];
  split; [vm_compute; reflexivity|]; split; [vm_compute; reflexivity|]; split; [vm_compute; reflexivity|]; split;
  [split; [reflexivity|]; split; [repeat (constructor; [cbn; auto|]); constructor|repeat (constructor; [split; unfold code; cbn [fst snd]; lia|]); constructor]|];
  split; [vm_compute; reflexivity|]; split; [vm_compute; reflexivity|]; split; [vm_compute; reflexivity|]; split; [vm_compute; reflexivity|];
  eexists; eexists; split; [vm_compute; reflexivity|vm_compute; reflexivity].
(** The content streams of the two pages. *)
Ltac sources_it r3 r5 :=
  let NO := fresh in assert (NO : forall ps k, getPropByKey k ps = None -> ~ has_key ps k) by (let H := fresh in intros ? ? H; apply key_none; exact H);
  constructor; [|constructor; [|constructor]];
  [eapply source_intro with (a := [mkProp (B"Type") []; mkProp (B"Page") []; mkProp (B"Parent") (B"2 0 R"); mkProp (B"MediaBox") (B"[0 0 50 100]"); mkProp (B"Resources") r3]) (b := [])
      (head := [10] ++ B"<<" ++ [10] ++ B"/Length 4" ++ [10] ++ B">>" ++ [10]) (eol := [10]) (raw := B"q Q ") (t := []) (u := [10]); try (vm_compute; reflexivity);
    [left; reflexivity|apply dec_direct with (v := B"4"); [apply value_iff|]; vm_compute; reflexivity|cbn; lia|apply dec_plain; apply NO; reflexivity]
  |eapply source_intro with (a := [mkProp (B"Type") []; mkProp (B"Page") []; mkProp (B"Parent") (B"2 0 R"); mkProp (B"MediaBox") (B"[0 0 50 200]"); mkProp (B"Resources") r5]) (b := [])
      (head := [10] ++ B"<<" ++ [10] ++ B"/Length 2" ++ [10] ++ B">>" ++ [10]) (eol := [10]) (raw := B"n ") (t := []) (u := [10]); try (vm_compute; reflexivity);
    [left; reflexivity|apply dec_direct with (v := B"2"); [apply value_iff|]; vm_compute; reflexivity|cbn; lia|apply dec_plain; apply NO; reflexivity]].

Lemma drawn_ins : forall fonts imgs cs ins js, Forall2 (fun c (i : Z * bytes) => content_of fonts imgs c = (fst i, Ok (snd i))) cs ins -> map (content_of fonts imgs) cs = calls js -> ins = js.
Proof.
  intros fonts imgs cs ins js D. revert js. induction D as [|c i cs is H D IH]; intros [|j js] Ec; try discriminate; [reflexivity|]. cbn [map calls] in Ec. rewrite H in Ec.
  pose proof (f_equal (fun l => hd (0, Panic) l) Ec) as E1. pose proof (f_equal (@tl _) Ec) as E2. cbn [hd tl] in E1, E2. rewrite (IH js E2). f_equal. destruct i, j; cbn in *; congruence.
Qed.

(** The first page gets the text and the second the image. *)
Definition two_shown (cs : list call) (doc : pdf) (fid : Z) (name iops : bytes) (fps0 : list prop) (more : state -> state -> pdf -> inserts -> Prop) : Prop :=
  exists s s' F p' ins f fps xps d n, after cs = Ok s /\ saveTo plain_world 5 (plain_choices false) s = Ok (s', Ok F) /\ more s s' p' ins /\
  file_of F p' /\ page_tree p' (Node 2 leaves35) /\ page_fonts (objs p') 3 fps /\ page_images (objs p') 5 xps /\
  (forall k n, font_named fps0 k n -> font_named fps k n) /\ font_named fps (B"F2") fid /\ nth_error (s_fonts s) 0 = Some f /\ fd_map f = [(65, 1); (66, 2)] /\ embeds plain_world (objs p') f fid /\
  (forall xps0 k n, page_images (objs doc) 5 xps0 -> font_named xps0 k n -> font_named xps k n) /\ font_named xps name n /\ the_object (objs p') n (mkObj n d) /\
  page_shows (objs p') 3 4 (B"q Q " ++ [10] ++ text_ops) /\ page_shows (objs p') 5 6 (B"n " ++ [10] ++ iops).

Lemma two_case : forall cs doc fid c m iops fi xi fps0, runs cs doc fid c m iops -> ready_document doc 2 leaves35 fi xi ->
  Forall2 (source (w_inflate plain_world) (objs doc)) [3; 5] shared_srcs ->
  (forall c, In c [4; 6] -> ~ In c (root doc :: 2 :: flat_map tree_ids leaves35) /\ ~ page_object [3; 5] fi c) -> 0 <= root doc ->
  page_fonts (objs doc) 3 fps0 -> Forall (fun x => numbered_name (pkey x)) fps0 -> pictured [3; 5] xi 5 ->
  two_shown cs doc fid (c ++ itoa m) iops fps0 (fun s s' p' ins => d_pdf (s_doc s) = doc /\ saved_document plain_world s s' 2 leaves35 fi xi shared_srcs p' ins).
Proof.
  intros cs doc fid c m iops fi xi fps0 (s & s' & F & f & i & Af & Sv & Ed & Pr & Nm & Sz & Ef & Bu & Mp & Ei & Ix & Im & o1 & o2 & Ct & Tx) RD Sr Ap Rt Pf Nn Pc.
  apply Z.ltb_lt in Sz.
  destruct (save_whole plain_world 5 (plain_choices false) s s' F 2 leaves35 fi xi shared_srcs Sv) as (p' & ins & Fo & SD).
  - intros k A l. apply Permutation_refl.
  - exact Pr.
  - rewrite Nm. constructor; [intros []|constructor].
  - rewrite Ed. exact RD.
  - rewrite Ed. exact Sr.
  - rewrite Ed. exact Ap.
  - cbn. lia.
  - rewrite Ed. exact Rt.
  - exact Sz.
  - pose proof (drawn_ins _ _ _ _ _ (sd_drawn _ _ _ _ _ _ _ _ _ _ SD) Ct) as Ein.
    rewrite <- Ed in Pf. destruct (sd_fonts _ _ _ _ _ _ _ _ _ _ SD 3 fps0 (or_introl eq_refl) Pf) as (fps & Pf' & Old & New).
    destruct (New (B"T") 0%nat f) as (f' & E' & Fn & Em); [rewrite Nm; left; reflexivity|exact Ef|exact Bu|].
    rewrite E' in Ix. cbn [option_map] in Ix. assert (X1 : fd_index f' = 2) by congruence. assert (X2 : fd_id f' = fid) by congruence. rewrite X1, X2 in *.
    destruct (sd_images _ _ _ _ _ _ _ _ _ _ SD 5 (or_intror (or_introl eq_refl)) Pc) as (xps & Pi & Oldi & Newi). rewrite Ed in Oldi.
    destruct (Newi 0%nat i Ei) as (i' & n & Ei' & Di & In' & Ob).
    rewrite Ei' in Im. cbn [option_map] in Im. assert (Y1 : im_char i' = c) by congruence. assert (Y2 : im_index i' = m) by congruence. rewrite Y1, Y2 in In'.
    exists s, s', F, p', ins, f, fps, xps, (im_data i), n. split; [exact Af|]. split; [exact Sv|]. split; [split; [exact Ed|exact SD]|]. split; [exact Fo|].
    split; [apply (sd_tree _ _ _ _ _ _ _ _ _ _ SD)|]. split; [exact Pf'|]. split; [exact Pi|]. split; [exact (Old Nn)|]. split; [exact Fn|].
    split; [exact Ef|]. split; [exact Mp|]. split; [exact Em|]. split; [exact Oldi|]. split; [exact In'|]. split; [exact Ob|].
    subst ins. split.
    * rewrite <- Tx. replace (o1 ++ o2) with (drawn [(1, o1); (1, o2); (2, iops)] 1) by (cbn [drawn Z.eqb Pos.eqb]; rewrite app_nil_r; reflexivity).
      apply (sd_contents _ _ _ _ _ _ _ _ _ _ SD 1 3 4 (B"q Q ")); [reflexivity| |].
      ** split; [lia|]. split; [reflexivity|]. exists o1. left. reflexivity.
      ** intros k t Hk (_ & W & _). destruct (Z.to_nat (k - 1)) as [|[|z]] eqn:Em'; [lia|discriminate|destruct z; discriminate].
    * replace (B"n " ++ [10] ++ iops) with (B"n " ++ [10] ++ drawn [(1, o1); (1, o2); (2, iops)] 2) by (cbn [drawn Z.eqb Pos.eqb]; rewrite app_nil_r; reflexivity).
      apply (sd_contents _ _ _ _ _ _ _ _ _ _ SD 2 5 6 (B"n ")); [reflexivity| |].
      ** split; [lia|]. split; [reflexivity|]. exists iops. right. right. left. reflexivity.
      ** intros k t Hk (_ & W & _). destruct (Z.to_nat (k - 1)) as [|[|z]] eqn:Em'; [discriminate|lia|destruct z; discriminate].
Qed.
