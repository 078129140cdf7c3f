(** A saved document. *)
From Coq Require Import String List ZArith Lia Bool Permutation.
From Coq.Floats Require Import SpecFloat.
From Verif Require Import Base BaseProofs Output OutputSpec Props PropsSpec PdfData PagesSpec PagesProofs PagesEdit Crawl Inject InjectSpec InjectMaps InjectVisits InjectPages InjectFonts InjectFinal InjectCheck
  ContentSpec ContentProofs ContentFinal ImgSpec ImgCrawl ImgLists ImgPages ImgFinal InjectCases ImgCases Float64 Ttf TtfSpec CharMap Subset Text Wrap FontObjects FontChainSpec FontChain Parse Api ApiIds TestFont ApiCases SaveSpec SaveFrame SaveFonts SaveDoc SaveWhole SaveCheck Crypto SaveLockSpec SaveLock.
Open Scope Z_scope.
Open Scope list_scope.

(** Two pages with one resource object, that has a font and an image. *)
Definition shared_objs : list obj := two_pages (B" 7 0 R") (B" 7 0 R")
  [mkObj 7 (B"<</Font<</F1 8 0 R>>/ProcSet[/PDF]/XObject<</Im1 9 0 R>>>>"); mkObj 8 (B"<</Type/Font>>"); mkObj 9 (B"<</Type/XObject/Subtype/Image>>")].
Definition shared_file : bytes := toStream shared_objs 9 1 None.
Definition shared_calls : list call := calls_on shared_objs 9.
Definition shared_doc : pdf := doc_of shared_objs.
Definition image_ops : bytes := B"q 100.00 0 0 20.00 10.00 160.00 cm /Im2 Do Q" ++ [10].
Lemma shared_run : runs shared_calls shared_doc 11 (B"Im") 2 image_ops.
Proof. run_it shared_calls. Qed.
Notation shared_fonts := (place_of (B"Font") (objs shared_doc)).
Notation shared_images := (place_of (B"XObject") (objs shared_doc)).

Lemma one_image : forall k c n v, k = c ++ itoa n -> 0 <= n < 2 ^ 63 -> regb k = true -> forallb (fun x => (97 <=? x) && (x <=? 122) || (65 <=? x) && (x <=? 90)) c = true ->
  (exists o, readObjID v = Ok o) -> numbered_images [mkProp k v] /\ last_greatest [mkProp k v].
Proof.
  intros k c n v -> Hn R L (o & Rd). pose proof (image_check c n Hn L) as N. split.
  - intros q [<-|[]]. split; [apply regb_reg; exact R|]. split; [exists n; exact N|exists o; exact Rd].
  - intros a q q' m m' E H Hm Hm'. destruct a as [|y a]; [|destruct a; discriminate]. inversion E; subst q. destruct H as [<-|[]]. pose proof (number_fun _ _ _ Hm Hm'). lia.
Qed.
Lemma shared_pictures : pictures shared_doc 2 leaves35 shared_images.
Proof.
  destruct (one_image (B"Im1") (B"Im") 1 (B"9 0 R")) as (N1 & N2); [reflexivity|lia|vm_compute; reflexivity|vm_compute; reflexivity|exists 9; vm_compute; reflexivity|].
  apply (pic_shared _ _ _ _ 7 (props_of (objs shared_doc) 7) [mkProp (B"Im1") (B"9 0 R")]); [|exact N1|exact N2|apply writobb_is; [vm_compute; discriminate|vm_compute; reflexivity]].
  intros L [<-|[<-|[]]]; right; vm_compute; reflexivity.
Qed.
Lemma shared_ready : ready_document shared_doc 2 leaves35 shared_fonts shared_images.
Proof. apply ready_check; [vm_compute; reflexivity|exact shared_pictures]. Qed.
Lemma shared_sources : Forall2 (source (w_inflate plain_world) (objs shared_doc)) [3; 5] shared_srcs.
Proof. sources_it (B"7 0 R") (B"7 0 R"). Qed.
Lemma shared_apart : forall c, In c [4; 6] -> ~ In c (root shared_doc :: 2 :: flat_map tree_ids leaves35) /\ ~ page_object [3; 5] shared_fonts c.
Proof. apply (apart_check shared_doc 2 leaves35 [4; 6]). vm_compute. reflexivity. Qed.
Lemma shared_old : page_fonts (objs shared_doc) 3 [mkProp (B"F1") (B"8 0 R")].
Proof. apply pf_of_is. vm_compute. reflexivity. Qed.
Lemma shared_old_images : page_images (objs shared_doc) 5 [mkProp (B"Im1") (B"9 0 R")].
Proof. apply pf_of_is. vm_compute. reflexivity. Qed.
Lemma shared_pictured : pictured [3; 5] shared_images 5.
Proof. split; [vm_compute; discriminate|left; vm_compute; discriminate]. Qed.
Lemma f1_numbered : forall v, Forall (fun x => numbered_name (pkey x)) [mkProp (B"F1") v].
Proof. intros v. constructor; [|constructor]. apply (numbered_check (B"F") 1); [lia|reflexivity]. Qed.

(** The whole: text and an image are added to the two pages.  In the file the
    pages have the old font F1 and the new F2, the old image Im1 and the new Im2,
    F2 is complete, and the content streams use these names. *)
Lemma shared_case : exists s s' F p' f fps xps d n, after shared_calls = Ok s /\ saveTo plain_world 5 (plain_choices false) s = Ok (s', Ok F) /\
  file_of F p' /\ page_tree p' (Node 2 leaves35) /\ page_fonts (objs p') 3 fps /\ page_images (objs p') 5 xps /\
  font_named fps (B"F1") 8 /\ font_named fps (B"F2") 11 /\ nth_error (s_fonts s) 0 = Some f /\ fd_map f = [(65, 1); (66, 2)] /\ embeds plain_world (objs p') f 11 /\
  font_named xps (B"Im1") 9 /\ font_named xps (B"Im2") n /\ the_object (objs p') n (mkObj n d) /\
  page_shows (objs p') 3 4 (B"q Q " ++ [10] ++ text_ops) /\ page_shows (objs p') 5 6 (B"n " ++ [10] ++ image_ops).
Proof.
  destruct (two_case _ _ _ _ _ _ _ _ _ shared_run shared_ready shared_sources shared_apart ltac:(vm_compute; discriminate) shared_old (f1_numbered _) shared_pictured)
    as (s & s' & F & p' & ins & f & fps & xps & d & n & Af & Sv & _ & Fo & Tr & Pf & Pi & Of & Nf & Ef & Mp & Em & Oi & Ni & Ob & S1 & S2).
  exists s, s', F, p', f, fps, xps, d, n. repeat (split; [first [assumption | apply Of; names_it "8 0 R"%string | apply (Oi _ _ _ shared_old_images); names_it "9 0 R"%string]|]). exact S2.
Qed.

(** The same with passwords. *)
Definition locked_calls : list call := shared_calls ++ [KProtect [] 4 (B"user") (B"owner")].
Lemma locked_run : exists s s' F pr, after locked_calls = Ok s /\ saveTo plain_world 5 (plain_choices false) s = Ok (s', Ok F) /\
  d_pdf (s_doc s) = shared_doc /\ s_prot s = Some pr /\ setProtection [] 4 (B"user") (B"owner") = Ok pr /\ names_of s = [(B"T", 0%nat)] /\ (blen F <? 10 ^ 10) = true /\
  exists o1 o2, map (content_of (s_fonts s') (s_imgs s')) (s_cont s) = calls [(1, o1); (1, o2); (2, image_ops)].
Proof.
  exists (state_after locked_calls), (fst (saved_after locked_calls)), (snd (saved_after locked_calls)). eexists.
  split; [vm_compute; reflexivity|]. split; [vm_compute; reflexivity|]. split; [vm_compute; reflexivity|]. split; [vm_compute; reflexivity|].
  split; [vm_compute; reflexivity|]. split; [vm_compute; reflexivity|]. split; [vm_compute; reflexivity|].
  eexists. eexists. vm_compute; reflexivity.
Qed.
Lemma locked_case : exists s s' F p', after locked_calls = Ok s /\ saveTo plain_world 5 (plain_choices false) s = Ok (s', Ok F) /\
  locked_file F p' (B"user") (B"owner") /\ page_tree p' (Node 2 leaves35) /\ page_shows (objs p') 5 6 (B"n " ++ [10] ++ image_ops).
Proof.
  destruct locked_run as (s & s' & F & pr & Af & Sv & Ed & Pr & Sp & Nm & Sz & o1 & o2 & Ct). apply Z.ltb_lt in Sz.
  destruct (save_locked plain_world 5 (plain_choices false) s s' F 2 leaves35 shared_fonts shared_images shared_srcs pr [] 4 (B"user") (B"owner") Sv)
    as (p' & ins & Fo & SD).
  - intros k A l. apply Permutation_refl.
  - exact Pr.
  - exact Sp.
  - lia.
  - rewrite Nm. constructor; [intros []|constructor].
  - rewrite Ed. exact shared_ready.
  - rewrite Ed. exact shared_sources.
  - rewrite Ed. exact shared_apart.
  - cbn. lia.
  - rewrite Ed. vm_compute. discriminate.
  - exact Sz.
  - pose proof (drawn_ins _ _ _ _ _ (sd_drawn _ _ _ _ _ _ _ _ _ _ SD) Ct) as Ein.
    exists s, s', F, p'. split; [exact Af|]. split; [exact Sv|]. split; [exact Fo|]. split; [apply (sd_tree _ _ _ _ _ _ _ _ _ _ SD)|]. subst ins.
    replace (B"n " ++ [10] ++ image_ops) with (B"n " ++ [10] ++ drawn [(1, o1); (1, o2); (2, image_ops)] 2) by (cbn [drawn Z.eqb Pos.eqb]; rewrite app_nil_r; reflexivity).
    apply (sd_contents _ _ _ _ _ _ _ _ _ _ SD 2 5 6 (B"n ")); [reflexivity| |].
    * split; [lia|]. split; [reflexivity|]. exists image_ops. right. right. left. reflexivity.
    * intros k t Hk (_ & W & _). destruct (Z.to_nat (k - 1)) as [|[|m]] eqn:Em'; [discriminate|lia|destruct m; discriminate].
Qed.
