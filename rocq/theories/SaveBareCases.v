(** Saved documents that had no images, or the resources in the pages. *)
From Coq Require Import String List ZArith Lia Bool Permutation.
From Coq.Floats Require Import SpecFloat.
From Verif Require Import Base BaseProofs Output OutputSpec Props PropsSpec PdfData PagesSpec PagesProofs PagesEdit Crawl Inject InjectSpec InjectMaps InjectVisits InjectPages InjectFonts InjectFinal InjectCheck
  ContentSpec ContentProofs ContentFinal ImgSpec ImgCrawl ImgLists ImgPages ImgFinal InjectCases ImgCases Float64 Ttf TtfSpec CharMap Subset Text Wrap FontObjects FontChainSpec FontChain Parse Api ApiIds TestFont ApiCases SaveSpec SaveFrame SaveFonts SaveDoc SaveWhole SaveCheck SaveCases.
Open Scope Z_scope.
Open Scope list_scope.

(** Two pages with one resource object, whose fonts are in an object of their own. *)
Definition bare_objs : list obj := two_pages (B" 7 0 R") (B" 7 0 R") [mkObj 7 (B"<</Font 8 0 R/ProcSet[/PDF]>>"); mkObj 8 (B"<</F1 9 0 R>>"); mkObj 9 (B"<</Type/Font>>")].
Definition bare_calls : list call := calls_on bare_objs 9.
Definition bare_doc : pdf := doc_of bare_objs.
Definition bare_ops : bytes := B"q 100.00 0 0 20.00 10.00 160.00 cm /I1 Do Q" ++ [10].
Lemma bare_run : runs bare_calls bare_doc 11 (B"I") 1 bare_ops.
Proof. run_it bare_calls. Qed.
Lemma bare_ready : ready_document bare_doc 2 leaves35 (fonts_in (objs bare_doc)) (images_in (objs bare_doc)).
Proof.
  apply ready_check; [vm_compute; reflexivity|]. apply pic_none.
  - intros L [<-|[<-|[]]]; vm_compute; exact Logic.I.
  - assert (E7 : extendable (objs bare_doc) 7 (props_of (objs bare_doc) 7)) by (apply extendb_is; [vm_compute; discriminate|vm_compute; reflexivity|vm_compute; reflexivity]).
    assert (X : forall L, In L [3; 5] -> images_in (objs bare_doc) L = ResAt 7 (props_of (objs bare_doc) 7) NoFont) by (intros L [<-|[<-|[]]]; vm_compute; reflexivity).
    intros L r rps HL E. rewrite (X L HL) in E. assert (7 = r) by congruence. assert (props_of (objs bare_doc) 7 = rps) by congruence. subst. exact E7.
  - intros j Hj. exists (props_of (objs bare_doc) j).
    destruct Hj as [<-|[<-|[<-|[<-|[]]]]]; (apply extendb_is; [vm_compute; discriminate|vm_compute; reflexivity|vm_compute; reflexivity]).
Qed.
Lemma bare_sources : Forall2 (source (w_inflate plain_world) (objs bare_doc)) [3; 5] shared_srcs.
Proof. sources_it (B"7 0 R") (B"7 0 R"). Qed.
Lemma bare_apart : forall c, In c [4; 6] -> ~ In c (root bare_doc :: 2 :: flat_map tree_ids leaves35) /\ ~ page_object [3; 5] (fonts_in (objs bare_doc)) c.
Proof. apply (apart_check bare_doc 2 leaves35 [4; 6]). vm_compute. reflexivity. Qed.
Lemma bare_old : page_fonts (objs bare_doc) 3 [mkProp (B"F1") (B"9 0 R")].
Proof. apply pf_of_is. vm_compute. reflexivity. Qed.
Lemma bare_pictured : pictured [3; 5] (images_in (objs bare_doc)) 5.
Proof. split; [vm_compute; discriminate|right; intros L [<-|[<-|[]]]; vm_compute; reflexivity]. Qed.
Lemma bare_three : dict (objs bare_doc) 3 (props_of (objs bare_doc) 3) /\ value (props_of (objs bare_doc) 3) (B"MediaBox") (B"[0 0 50 100]").
Proof.
  split; [|apply value_iff; vm_compute; reflexivity]. assert (E : extendable (objs bare_doc) 3 (props_of (objs bare_doc) 3)) by (apply extendb_is; [vm_compute; discriminate|vm_compute; reflexivity|vm_compute; reflexivity]).
  apply E.
Qed.
Lemma bare_case : exists s s' F p' f fps xps ps d n, after bare_calls = Ok s /\ saveTo plain_world 5 (plain_choices false) s = Ok (s', Ok F) /\
  file_of F p' /\ page_tree p' (Node 2 leaves35) /\ page_fonts (objs p') 3 fps /\ page_images (objs p') 5 xps /\
  font_named fps (B"F1") 9 /\ font_named fps (B"F2") 11 /\ nth_error (s_fonts s) 0 = Some f /\ fd_map f = [(65, 1); (66, 2)] /\ embeds plain_world (objs p') f 11 /\
  font_named xps (B"I1") n /\ the_object (objs p') n (mkObj n d) /\ dict (objs p') 3 ps /\ value ps (B"MediaBox") (B"[0 0 50 100]") /\
  page_shows (objs p') 3 4 (B"q Q " ++ [10] ++ text_ops) /\ page_shows (objs p') 5 6 (B"n " ++ [10] ++ bare_ops).
Proof.
  destruct (two_case _ _ _ _ _ _ _ _ _ bare_run bare_ready bare_sources bare_apart ltac:(vm_compute; discriminate) bare_old (f1_numbered _) bare_pictured)
    as (s & s' & F & p' & ins & f & fps & xps & d & n & Af & Sv & (Ed & SD) & Fo & Tr & Pf & Pi & Of & Nf & Ef & Mp & Em & Oi & Ni & Ob & S1 & S2).
  destruct bare_three as (D3 & V3). rewrite <- Ed in D3 at 1. destruct (sd_nodes _ _ _ _ _ _ _ _ _ _ SD 3 _ (or_intror (or_intror (or_introl eq_refl))) D3) as (ps' & D' & Kp & _).
  assert (Nk : B"MediaBox" <> B"Resources") by discriminate. pose proof (Kp _ _ Nk V3) as V'. clear Nk. clear Kp Ed SD D3 V3 Oi.
  exists s, s', F, p', f, fps, xps, ps', d, n. repeat (split; [first [assumption | apply Of; names_it "9 0 R"%string]|]). exact S2.
Qed.

(** Resources and images in the pages.  The second page has no fonts, and its
    image has the greatest number. *)
Definition inside_objs : list obj := two_pages (B"<</Font<</F1 7 0 R>>/XObject<</Im1 8 0 R>>>>") (B"<</ProcSet[/PDF]/XObject<</X7 9 0 R>>>>")
  [mkObj 7 (B"<</Type/Font>>"); mkObj 8 (B"<</Type/XObject/Subtype/Image>>"); mkObj 9 (B"<</Type/XObject/Subtype/Image>>")].
Definition inside_calls : list call := calls_on inside_objs 9.
Definition inside_doc : pdf := doc_of inside_objs.
Definition inside_ops : bytes := B"q 100.00 0 0 20.00 10.00 160.00 cm /X8 Do Q" ++ [10].
Lemma inside_run : runs inside_calls inside_doc 11 (B"X") 8 inside_ops.
Proof. run_it inside_calls. Qed.
Lemma inside_ready : ready_document inside_doc 2 leaves35 (fonts_in (objs inside_doc)) (images_in (objs inside_doc)).
Proof.
  apply ready_check; [vm_compute; reflexivity|]. apply pic_inside.
  - intros L [<-|[<-|[]]]; vm_compute; exact Logic.I.
  - exists 3. eexists. eexists. split; [left; reflexivity|vm_compute; reflexivity].
  - assert (X3 : exists rps, images_in (objs inside_doc) 3 = ResIn rps (FontIn [mkProp (B"Im1") (B"8 0 R")])) by (eexists; vm_compute; reflexivity).
    assert (X5 : exists rps, images_in (objs inside_doc) 5 = ResIn rps (FontIn [mkProp (B"X7") (B"9 0 R")])) by (eexists; vm_compute; reflexivity).
    destruct (one_image (B"Im1") (B"Im") 1 (B"8 0 R")) as (A1 & A2); [reflexivity|lia|vm_compute; reflexivity|vm_compute; reflexivity|exists 8; vm_compute; reflexivity|].
    destruct (one_image (B"X7") (B"X") 7 (B"9 0 R")) as (C1 & C2); [reflexivity|lia|vm_compute; reflexivity|vm_compute; reflexivity|exists 9; vm_compute; reflexivity|].
    assert (W : forall L, In L [3; 5] -> writable_page (objs inside_doc) [3; 5] (images_in (objs inside_doc)) L)
      by (intros L [<-|[<-|[]]]; (apply writableb_is; vm_compute; reflexivity)).
    intros L rps xps HL E. split; [|split; [|exact (W L HL)]].
    + destruct HL as [<-|[<-|[]]]; [destruct X3 as (r & X3); rewrite X3 in E|destruct X5 as (r & X5); rewrite X5 in E].
      * assert ([mkProp (B"Im1") (B"8 0 R")] = xps) by congruence. subst xps. exact A1.
      * assert ([mkProp (B"X7") (B"9 0 R")] = xps) by congruence. subst xps. exact C1.
    + destruct HL as [<-|[<-|[]]]; [destruct X3 as (r & X3); rewrite X3 in E|destruct X5 as (r & X5); rewrite X5 in E].
      * assert ([mkProp (B"Im1") (B"8 0 R")] = xps) by congruence. subst xps. exact A2.
      * assert ([mkProp (B"X7") (B"9 0 R")] = xps) by congruence. subst xps. exact C2.
Qed.
Lemma inside_sources : Forall2 (source (w_inflate plain_world) (objs inside_doc)) [3; 5] shared_srcs.
Proof. sources_it (B"<</Font<</F1 7 0 R>>/XObject<</Im1 8 0 R>>>>") (B"<</ProcSet[/PDF]/XObject<</X7 9 0 R>>>>"). Qed.
Lemma inside_apart : forall c, In c [4; 6] -> ~ In c (root inside_doc :: 2 :: flat_map tree_ids leaves35) /\ ~ page_object [3; 5] (fonts_in (objs inside_doc)) c.
Proof. apply (apart_check inside_doc 2 leaves35 [4; 6]). vm_compute. reflexivity. Qed.
Lemma inside_old : page_fonts (objs inside_doc) 3 [mkProp (B"F1") (B"7 0 R")].
Proof. apply pf_of_is. vm_compute. reflexivity. Qed.
Lemma inside_old_images : page_images (objs inside_doc) 5 [mkProp (B"X7") (B"9 0 R")].
Proof. apply pf_of_is. vm_compute. reflexivity. Qed.
Lemma inside_pictured : pictured [3; 5] (images_in (objs inside_doc)) 5.
Proof. split; [vm_compute; discriminate|left; vm_compute; discriminate]. Qed.
Lemma inside_case : exists s s' F p' f fps xps d n, after inside_calls = Ok s /\ saveTo plain_world 5 (plain_choices false) s = Ok (s', Ok F) /\
  file_of F p' /\ page_tree p' (Node 2 leaves35) /\ page_fonts (objs p') 3 fps /\ page_images (objs p') 5 xps /\
  font_named fps (B"F1") 7 /\ font_named fps (B"F2") 11 /\ nth_error (s_fonts s) 0 = Some f /\ fd_map f = [(65, 1); (66, 2)] /\ embeds plain_world (objs p') f 11 /\
  font_named xps (B"X7") 9 /\ font_named xps (B"X8") n /\ the_object (objs p') n (mkObj n d) /\
  page_shows (objs p') 3 4 (B"q Q " ++ [10] ++ text_ops) /\ page_shows (objs p') 5 6 (B"n " ++ [10] ++ inside_ops).
Proof.
  destruct (two_case _ _ _ _ _ _ _ _ _ inside_run inside_ready inside_sources inside_apart ltac:(vm_compute; discriminate) inside_old (f1_numbered _) inside_pictured)
    as (s & s' & F & p' & ins & f & fps & xps & d & n & Af & Sv & _ & Fo & Tr & Pf & Pi & Of & Nf & Ef & Mp & Em & Oi & Ni & Ob & S1 & S2).
  exists s, s', F, p', f, fps, xps, d, n. repeat (split; [first [assumption | apply Of; names_it "7 0 R"%string | apply (Oi _ _ _ inside_old_images); names_it "9 0 R"%string]|]). exact S2.
Qed.

(** Resources in the pages, and no images. *)
Definition nowhere_objs : list obj := two_pages (B"<</Font<</F1 7 0 R>>/ProcSet[/PDF]>>") (B"<</ProcSet[/PDF]>>") [mkObj 7 (B"<</Type/Font>>")].
Definition nowhere_calls : list call := calls_on nowhere_objs 7.
Definition nowhere_doc : pdf := doc_of nowhere_objs.
Lemma nowhere_run : runs nowhere_calls nowhere_doc 9 (B"I") 1 bare_ops.
Proof. run_it nowhere_calls. Qed.
Lemma inline_check : forall os id t rps, propsb os id <> None -> writobb os id = true -> onceb (props_of os id) (B"Resources") = true ->
  option_map pval (getPropByKey (B"Resources") (props_of os id)) = Some (B"<<" ++ t ++ B">>") -> readProperties (B"<<" ++ t ++ B">>") = Ok rps ->
  Base.trim_space t = t -> norm t = t -> balanced 0 0 t = true -> forallb (fun q => balanced 0 0 (pval q)) rps = true -> inline_extendable os id rps.
Proof.
  intros os id t rps H1 H2 H3 H4 H5 H6 H7 H8 H9. exists (props_of os id), (B"<<" ++ t ++ B">>"). split; [apply writobb_is; assumption|]. split; [|split; [exact H5|]].
  - destruct (getPropByKey (B"Resources") (props_of os id)) as [q|] eqn:G; [|discriminate]. cbn [option_map] in H4. assert (E : pval q = B"<<" ++ t ++ B">>") by congruence. rewrite <- E.
    apply onceb_once; assumption.
  - exists t. split; [reflexivity|]. split; [exact H6|]. split; [exact H7|]. split; [exact H8|]. rewrite forallb_forall in H9. apply Forall_forall. exact H9.
Qed.
Lemma nowhere_ready : ready_document nowhere_doc 2 leaves35 (fonts_in (objs nowhere_doc)) (images_in (objs nowhere_doc)).
Proof.
  apply ready_check; [vm_compute; reflexivity|]. apply pic_nowhere.
  - intros L [<-|[<-|[]]]; vm_compute; exact Logic.I.
  - set (r3 := [mkProp (B"Font") (B"<</F1 7 0 R>>"); mkProp (B"ProcSet") (B"[/PDF]")]). set (r5 := [mkProp (B"ProcSet") (B"[/PDF]")]).
    assert (X3 : images_in (objs nowhere_doc) 3 = ResIn r3 NoFont) by (vm_compute; reflexivity).
    assert (X5 : images_in (objs nowhere_doc) 5 = ResIn r5 NoFont) by (vm_compute; reflexivity).
    assert (E3 : inline_extendable (objs nowhere_doc) 3 r3) by (apply (inline_check _ _ (B"/Font<</F1 7 0 R>>/ProcSet[/PDF]")); [vm_compute; discriminate|vm_compute; reflexivity..]).
    assert (E5 : inline_extendable (objs nowhere_doc) 5 r5) by (apply (inline_check _ _ (B"/ProcSet[/PDF]")); [vm_compute; discriminate|vm_compute; reflexivity..]).
    intros L rps [<-|[<-|[]]] E; [rewrite X3 in E; assert (r3 = rps) by congruence|rewrite X5 in E; assert (r5 = rps) by congruence]; subst rps; split; auto; [left|right; left]; reflexivity.
Qed.
Lemma nowhere_sources : Forall2 (source (w_inflate plain_world) (objs nowhere_doc)) [3; 5] shared_srcs.
Proof. sources_it (B"<</Font<</F1 7 0 R>>/ProcSet[/PDF]>>") (B"<</ProcSet[/PDF]>>"). Qed.
Lemma nowhere_apart : forall c, In c [4; 6] -> ~ In c (root nowhere_doc :: 2 :: flat_map tree_ids leaves35) /\ ~ page_object [3; 5] (fonts_in (objs nowhere_doc)) c.
Proof. apply (apart_check nowhere_doc 2 leaves35 [4; 6]). vm_compute. reflexivity. Qed.
Lemma nowhere_old : page_fonts (objs nowhere_doc) 3 [mkProp (B"F1") (B"7 0 R")].
Proof. apply pf_of_is. vm_compute. reflexivity. Qed.
Lemma nowhere_pictured : pictured [3; 5] (images_in (objs nowhere_doc)) 5.
Proof. split; [vm_compute; discriminate|right; intros L [<-|[<-|[]]]; vm_compute; reflexivity]. Qed.
Lemma nowhere_case : exists s s' F p' f fps xps d n, after nowhere_calls = Ok s /\ saveTo plain_world 5 (plain_choices false) s = Ok (s', Ok F) /\
  file_of F p' /\ page_tree p' (Node 2 leaves35) /\ page_fonts (objs p') 3 fps /\ page_images (objs p') 5 xps /\
  font_named fps (B"F1") 7 /\ font_named fps (B"F2") 9 /\ nth_error (s_fonts s) 0 = Some f /\ fd_map f = [(65, 1); (66, 2)] /\ embeds plain_world (objs p') f 9 /\
  font_named xps (B"I1") n /\ the_object (objs p') n (mkObj n d) /\
  page_shows (objs p') 3 4 (B"q Q " ++ [10] ++ text_ops) /\ page_shows (objs p') 5 6 (B"n " ++ [10] ++ bare_ops).
Proof.
  destruct (two_case _ _ _ _ _ _ _ _ _ nowhere_run nowhere_ready nowhere_sources nowhere_apart ltac:(vm_compute; discriminate) nowhere_old (f1_numbered _) nowhere_pictured)
    as (s & s' & F & p' & ins & f & fps & xps & d & n & Af & Sv & _ & Fo & Tr & Pf & Pi & Of & Nf & Ef & Mp & Em & Oi & Ni & Ob & S1 & S2).
  exists s, s', F, p', f, fps, xps, d, n. repeat (split; [first [assumption | apply Of; names_it "7 0 R"%string]|]). exact S2.
Qed.
