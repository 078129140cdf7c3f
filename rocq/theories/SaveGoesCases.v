(** Documents that are saved, and documents that are not. *)
From Coq Require Import String List ZArith Lia Bool Permutation.
From Coq.Floats Require Import SpecFloat.
From Verif Require Import Base BaseProofs CryptoSpec Output OutputSpec Props PropsSpec PdfData PagesSpec PagesProofs PagesEdit Crawl Inject InjectSpec InjectMaps InjectVisits InjectPages InjectFonts InjectFinal InjectCheck
  ContentSpec ContentProofs ContentFinal ImgSpec ImgCrawl ImgLists ImgPages ImgFinal InjectCases ImgCases Float64 Ttf TtfSpec TtfProofs CharMap Subset FontTotal FontFinal Text Wrap FontObjects FontChainSpec FontChain Parse Api ApiIds TestFont FontCases ApiCases
  SaveSpec SaveFonts SaveImages SaveCheck SaveCases SaveBareCases SaveGoesSpec SaveGoes SaveGoesFinal.
Open Scope Z_scope.
Open Scope list_scope.

(** ** The font of the examples is complete *)
Definition insideb (d : bytes) (size : Z) : bool :=
  match u16 d 4 with
  | Some n => forallb (fun i => match dir_off d i, dir_len d i with Some o, Some l => o + pad4 l <=? size | _, _ => true end) (upto n)
  | None => true
  end.
Lemma inside_check : forall d size, insideb d size = true -> tables_inside d size.
Proof.
  intros d size H n tag i off len Hn Hi _ _ Ho Hl. unfold insideb in H. rewrite Hn in H. rewrite forallb_forall in H. specialize (H i (in_upto n i Hi)). rewrite Ho, Hl in H. apply Z.leb_le in H. exact H.
Qed.
Lemma test_complete : complete_font test_font [0; 0; 0; 0] 5.
Proof.
  constructor.
  - exact test_sound.
  - lia.
  - apply inside_check. vm_compute. reflexivity.
  - exists 2000. split; [|lia]. eexists; eexists. split; [apply locate_ok; vm_compute; reflexivity|vm_compute; reflexivity].
  - intros g Hg. assert (g = 0 \/ g = 1 \/ g = 2 \/ g = 3 \/ g = 4) as [->|[->|[->|[->| ->]]]] by lia; eexists; eexists; eexists; eexists; eexists; eexists;
      (split; [apply locate_ok; vm_compute; reflexivity|]); (split; [apply locate_ok; vm_compute; reflexivity|]); (split; [vm_compute; reflexivity|]); (split; [vm_compute; reflexivity|]); vm_compute; reflexivity.
Qed.

(** ** A document that is saved *)
Lemma nowhere_history : exists s log, history plain_world 5 nowhere_calls new_pdft = Ok (s, log) /\ d_pdf (s_doc s) = nowhere_doc /\ s_prot s = None /\
  map (fun f => (fd_ttf f, fd_beyond f, fd_map f)) (s_fonts s) = [(test_ttf, [0; 0; 0; 0], [(65, 1); (66, 2)])] /\
  (maxID (objs (d_pdf (s_doc s))) + 6 * Z.of_nat (List.length (names_of s)) + Z.of_nat (List.length (s_imgs s)) <? 2 ^ 63) = true.
Proof. eexists. eexists. split; [vm_compute; reflexivity|]. split; [vm_compute; reflexivity|]. split; [vm_compute; reflexivity|]. split; vm_compute; reflexivity. Qed.
Lemma plain_fair : forall k, fair (ch_ord (plain_choices k)).
Proof. intros k A l n. apply Permutation_refl. Qed.
Lemma one_readable : forall v n, readObjID v = Ok n -> Forall readable_font [mkProp (B"F1") v].
Proof. intros v n H. pose proof (f1_numbered v) as N. inversion N; subst. constructor; [|constructor]. split; [assumption|exists n; exact H]. Qed.
Lemma same_font : forall fs t y m n d, map (fun f => (fd_ttf f, fd_beyond f, fd_map f)) fs = [(t, y, m)] -> parseTtf d = Ok t -> complete_font d y n -> within n m ->
  Forall (fun f => exists d n, parseTtf d = Ok (fd_ttf f) /\ complete_font d (fd_beyond f) n /\ within n (fd_map f)) fs.
Proof.
  intros fs t y m n d H P C W. destruct fs as [|f [|g fs]]; try discriminate. cbn [map] in H. constructor; [|constructor]. exists d, n.
  assert (fd_ttf f = t) by congruence. assert (fd_beyond f = y) by congruence. assert (fd_map f = m) by congruence. subst. auto.
Qed.
Lemma ab_within : within 5 [(65, 1); (66, 2)].
Proof. intros r g [H|[H|[]]]; [assert (g = 1) by congruence|assert (g = 2) by congruence]; lia. Qed.
Lemma nowhere_three : fonts_in (objs nowhere_doc) 3 = ResIn [mkProp (B"Font") (B"<</F1 7 0 R>>"); mkProp (B"ProcSet") (B"[/PDF]")] (FontIn [mkProp (B"F1") (B"7 0 R")]).
Proof. vm_compute. reflexivity. Qed.
Lemma nowhere_five : fonts_in (objs nowhere_doc) 5 = ResIn [mkProp (B"ProcSet") (B"[/PDF]")] NoFont.
Proof. vm_compute. reflexivity. Qed.
Lemma nowhere_res : forall ps v, dict (objs nowhere_doc) 5 ps -> value ps (B"Resources") v -> v = B"<</ProcSet[/PDF]>>".
Proof.
  intros ps v D V. assert (D' : dict (objs nowhere_doc) 5 (props_of (objs nowhere_doc) 5)) by (apply propsb_dict; vm_compute; reflexivity).
  assert (E : ps = props_of (objs nowhere_doc) 5) by (eapply dict_fun; eauto). subst ps. eapply value_fun; [exact V|]. apply value_iff. vm_compute. reflexivity.
Qed.
Lemma nowhere_recognised : forall L, In L [3; 5] -> recognised (objs nowhere_doc) L (fonts_in (objs nowhere_doc) L).
Proof.
  intros L [<-|[<-|[]]]; [rewrite nowhere_three; cbn [recognised]; discriminate|rewrite nowhere_five; cbn [recognised]]. intros ps v D V. rewrite (nowhere_res ps v D V). vm_compute. discriminate.
Qed.
Lemma nowhere_fonts : forall L fps, In L [3; 5] -> offered (fonts_in (objs nowhere_doc) L) = Some fps -> Forall readable_font fps.
Proof.
  intros L fps [<-|[<-|[]]]; [rewrite nowhere_three|rewrite nowhere_five; discriminate]. cbn [offered]. intros H. assert (E : fps = [mkProp (B"F1") (B"7 0 R")]) by congruence. rewrite E.
  apply (one_readable _ 7). vm_compute. reflexivity.
Qed.
Lemma nowhere_some : images_in (objs nowhere_doc) 3 <> NoRes.
Proof. vm_compute. discriminate. Qed.
Lemma nowhere_can_of : forall s, d_pdf (s_doc s) = nowhere_doc -> map (fun f => (fd_ttf f, fd_beyond f, fd_map f)) (s_fonts s) = [(test_ttf, [0; 0; 0; 0], [(65, 1); (66, 2)])] ->
  maxID (objs (d_pdf (s_doc s))) + 6 * Z.of_nat (List.length (names_of s)) + Z.of_nat (List.length (s_imgs s)) < 2 ^ 63 ->
  can_save plain_world 5 s 2 leaves35 (fonts_in (objs nowhere_doc)) (images_in (objs nowhere_doc)) shared_srcs.
Proof.
  intros s Ed Fs Ro. constructor; rewrite ?Ed.
  - exact nowhere_ready.
  - exact nowhere_sources.
  - exact nowhere_apart.
  - cbn. lia.
  - exact nowhere_fonts.
  - exists 3. split; [left; reflexivity|]. exact nowhere_some.
  - exact nowhere_recognised.
  - eapply same_font; [exact Fs|exact test_parses|exact test_complete|exact ab_within].
  - rewrite Ed in Ro. exact Ro.
Qed.
Definition nowhere_can (s : state) : Prop := can_save plain_world 5 s 2 leaves35 (fonts_in (objs nowhere_doc)) (images_in (objs nowhere_doc)) shared_srcs.
Lemma nowhere_goes : exists s log s' F, history plain_world 5 nowhere_calls new_pdft = Ok (s, log) /\ nowhere_can s /\ s_prot s = None /\ saveTo plain_world 5 (plain_choices false) s = Ok (s', Ok F).
Proof.
  destruct nowhere_history as (s & log & Hh & Ed & Pr & Fs & Ro). apply Z.ltb_lt in Ro. pose proof (nowhere_can_of s Ed Fs Ro) as C.
  destruct (save_succeeds_files plain_world 5 (plain_choices false) nowhere_calls s log _ _ _ _ _ Hh (plain_fair false) C Pr) as (s' & F & Sv).
  exists s, log, s', F. auto.
Qed.
(** The same with a password. *)
Lemma nowhere_locked : exists s log s' F pr, history plain_world 5 (nowhere_calls ++ [KProtect [] 4 (B"user") (B"owner")]) new_pdft = Ok (s, log) /\ d_pdf (s_doc s) = nowhere_doc /\ s_prot s = Some pr /\
  map (fun f => (fd_ttf f, fd_beyond f, fd_map f)) (s_fonts s) = [(test_ttf, [0; 0; 0; 0], [(65, 1); (66, 2)])] /\
  (maxID (objs (d_pdf (s_doc s))) + 6 * Z.of_nat (List.length (names_of s)) + Z.of_nat (List.length (s_imgs s)) <? 2 ^ 63) = true /\ saveTo plain_world 5 (plain_choices false) s = Ok (s', Ok F).
Proof. eexists. eexists. eexists. eexists. eexists. split; [vm_compute; reflexivity|]. split; [vm_compute; reflexivity|]. split; [vm_compute; reflexivity|]. split; [vm_compute; reflexivity|]. split; vm_compute; reflexivity. Qed.
Lemma nowhere_locked_goes : exists s log s' F pr, history plain_world 5 (nowhere_calls ++ [KProtect [] 4 (B"user") (B"owner")]) new_pdft = Ok (s, log) /\ nowhere_can s /\ s_prot s = Some pr /\
  saveTo plain_world 5 (plain_choices false) s = Ok (s', Ok F).
Proof.
  destruct nowhere_locked as (s & log & s' & F & pr & Hh & Ed & Pr & Fs & Ro & Sv). apply Z.ltb_lt in Ro. exists s, log, s', F, pr. split; [exact Hh|]. split; [exact (nowhere_can_of s Ed Fs Ro)|]. auto.
Qed.

(** ** Resources with two blanks are taken for a reference *)
Definition blank_objs : list obj := two_pages (B"<</ProcSet[/PDF]/A 1/B 2>>") (B"<</Font<</F1 7 0 R>>/ProcSet[/PDF]>>") [mkObj 7 (B"<</Type/Font>>")].
Definition blank_calls : list call := calls_on blank_objs 7.
Definition blank_doc : pdf := doc_of blank_objs.
Lemma blank_ready : ready_document blank_doc 2 leaves35 (fonts_in (objs blank_doc)) (images_in (objs blank_doc)).
Proof.
  apply ready_check; [vm_compute; reflexivity|]. apply pic_nowhere.
  - intros L [<-|[<-|[]]]; vm_compute; exact Logic.I.
  - set (r5 := [mkProp (B"Font") (B"<</F1 7 0 R>>"); mkProp (B"ProcSet") (B"[/PDF]")]). set (r3 := [mkProp (B"ProcSet") (B"[/PDF]"); mkProp (B"A") (B"1"); mkProp (B"B") (B"2")]).
    assert (X3 : images_in (objs blank_doc) 3 = ResIn r3 NoFont) by (vm_compute; reflexivity).
    assert (X5 : images_in (objs blank_doc) 5 = ResIn r5 NoFont) by (vm_compute; reflexivity).
    assert (E3 : inline_extendable (objs blank_doc) 3 r3) by (apply (inline_check _ _ (B"/ProcSet[/PDF]/A 1/B 2")); [vm_compute; discriminate|vm_compute; reflexivity..]).
    assert (E5 : inline_extendable (objs blank_doc) 5 r5) by (apply (inline_check _ _ (B"/Font<</F1 7 0 R>>/ProcSet[/PDF]")); [vm_compute; discriminate|vm_compute; reflexivity..]).
    intros L rps [<-|[<-|[]]] E; [rewrite X3 in E; assert (r3 = rps) by congruence|rewrite X5 in E; assert (r5 = rps) by congruence]; subst rps; split; auto; [left|right; left]; reflexivity.
Qed.
Lemma blank_sources : Forall2 (source (w_inflate plain_world) (objs blank_doc)) [3; 5] shared_srcs.
Proof. sources_it (B"<</ProcSet[/PDF]/A 1/B 2>>") (B"<</Font<</F1 7 0 R>>/ProcSet[/PDF]>>"). Qed.
Lemma blank_apart : forall c, In c [4; 6] -> ~ In c (root blank_doc :: 2 :: flat_map tree_ids leaves35) /\ ~ page_object [3; 5] (fonts_in (objs blank_doc)) c.
Proof. apply (apart_check blank_doc 2 leaves35 [4; 6]). vm_compute. reflexivity. Qed.
Lemma blank_history : exists s log s', history plain_world 5 blank_calls new_pdft = Ok (s, log) /\ d_pdf (s_doc s) = blank_doc /\ s_prot s = None /\
  map (fun f => (fd_ttf f, fd_beyond f, fd_map f)) (s_fonts s) = [(test_ttf, [0; 0; 0; 0], [(65, 1); (66, 2)])] /\
  (maxID (objs (d_pdf (s_doc s))) + 6 * Z.of_nat (List.length (names_of s)) + Z.of_nat (List.length (s_imgs s)) <? 2 ^ 63) = true /\
  saveTo plain_world 5 (plain_choices false) s = Ok (s', Err EOther).
Proof. eexists. eexists. eexists. split; [vm_compute; reflexivity|]. split; [vm_compute; reflexivity|]. split; [vm_compute; reflexivity|]. split; [vm_compute; reflexivity|]. split; vm_compute; reflexivity. Qed.
Lemma blank_three : fonts_in (objs blank_doc) 3 = ResIn [mkProp (B"ProcSet") (B"[/PDF]"); mkProp (B"A") (B"1"); mkProp (B"B") (B"2")] NoFont.
Proof. vm_compute. reflexivity. Qed.
Lemma blank_five : fonts_in (objs blank_doc) 5 = ResIn [mkProp (B"Font") (B"<</F1 7 0 R>>"); mkProp (B"ProcSet") (B"[/PDF]")] (FontIn [mkProp (B"F1") (B"7 0 R")]).
Proof. vm_compute. reflexivity. Qed.
Lemma blank_fonts : forall L fps, In L [3; 5] -> offered (fonts_in (objs blank_doc) L) = Some fps -> Forall readable_font fps.
Proof.
  intros L fps [<-|[<-|[]]]; [rewrite blank_three; discriminate|rewrite blank_five]. cbn [offered]. intros H. assert (E : fps = [mkProp (B"F1") (B"7 0 R")]) by congruence. rewrite E.
  apply (one_readable _ 7). vm_compute. reflexivity.
Qed.
Lemma blank_res : forall L, In L [3; 5] -> images_in (objs blank_doc) L <> NoRes.
Proof. intros L [<-|[<-|[]]]; vm_compute; discriminate. Qed.

(** ** No page has resources *)
Definition unres_objs : list obj :=
  [mkObj 1 (B"<</Type/Catalog/Pages 2 0 R>>"); mkObj 2 (B"<</Type/Pages/Count 1/Kids[3 0 R]>>");
   mkObj 3 (B"<</Type/Page/Parent 2 0 R/MediaBox[0 0 50 100]/Contents 4 0 R>>"); mkObj 4 (content_object (B"q Q "))].
Definition unres_doc : pdf := doc_of unres_objs.
Lemma unres_ready : ready_document unres_doc 2 [Leaf 3] (fonts_in (objs unres_doc)) (images_in (objs unres_doc)).
Proof.
  assert (X3 : images_in (objs unres_doc) 3 = NoRes) by (vm_compute; reflexivity).
  apply ready_check; [vm_compute; reflexivity|]. apply pic_nowhere.
  - intros L [<-|[]]. rewrite X3. exact Logic.I.
  - intros L rps [<-|[]] E. rewrite X3 in E. discriminate.
Qed.
Lemma unres_history : exists s log s', history plain_world 5 [KOpen (toStream unres_objs 4 1 None)] new_pdft = Ok (s, log) /\ d_pdf (s_doc s) = unres_doc /\
  saveTo plain_world 5 (plain_choices false) s = Ok (s', Err EOther).
Proof. eexists. eexists. eexists. split; [vm_compute; reflexivity|]. split; vm_compute; reflexivity. Qed.

(** ** A string with the word stream *)
Definition word_objs : list obj := nowhere_objs ++ [mkObj 8 (B"(a stream)")].
Definition word_calls : list call := calls_on word_objs 8 ++ [KProtect [] 4 (B"user") (B"owner")].
Lemma word_history : exists s log s0 F0, history plain_world 5 word_calls new_pdft = Ok (s, log) /\ Forall (fun x => snd x = None) log /\ saveTo plain_world 5 (plain_choices false) (SaveGoesLock.unlocked s) = Ok (s0, Ok F0) /\
  saveTo plain_world 5 (plain_choices false) s = Panic.
Proof. eexists. eexists. eexists. eexists. split; [vm_compute; reflexivity|]. split; [repeat (constructor; [reflexivity|]); constructor|]. split; vm_compute; reflexivity. Qed.
Lemma blank_witness87 : exists w fuel ch cs s log rid ts fi xi srcs s', history w fuel cs new_pdft = Ok (s, log) /\ fair (ch_ord ch) /\ s_prot s = None /\
  ready_document (d_pdf (s_doc s)) rid ts fi xi /\ Forall2 (source (w_inflate w) (objs (d_pdf (s_doc s)))) (flat_map leaves ts) srcs /\
  (forall c, In c (content_ids srcs) -> ~ In c (root (d_pdf (s_doc s)) :: rid :: flat_map tree_ids ts) /\ ~ page_object (flat_map leaves ts) fi c) /\
  (depth (Node rid ts) <= fuel)%nat /\ (forall L fps, In L (flat_map leaves ts) -> offered (fi L) = Some fps -> Forall readable_font fps) /\
  (forall L, In L (flat_map leaves ts) -> xi L <> NoRes) /\
  Forall (fun f => exists d n, parseTtf d = Ok (fd_ttf f) /\ complete_font d (fd_beyond f) n /\ within n (fd_map f)) (s_fonts s) /\
  saveTo w fuel ch s = Ok (s', Err EOther).
Proof.
  destruct blank_history as (s & log & s' & Hh & Ed & Pr & Fs & _ & Sv).
  exists plain_world, 5%nat, (plain_choices false), blank_calls, s, log, 2, leaves35, (fonts_in (objs blank_doc)), (images_in (objs blank_doc)), shared_srcs, s'. rewrite Ed.
  split; [exact Hh|]. split; [apply plain_fair|]. split; [exact Pr|]. split; [exact blank_ready|]. split; [exact blank_sources|]. split; [exact blank_apart|]. split; [cbn; lia|].
  split; [exact blank_fonts|]. split; [exact blank_res|]. split; [eapply same_font; [exact Fs|exact test_parses|exact test_complete|exact ab_within]|exact Sv].
Qed.
