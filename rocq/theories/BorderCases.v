(** Borders on the first and on the second page (C80). *)
From Coq Require Import String List ZArith Lia Bool Permutation Reals Lra.
From Coq.Floats Require Import SpecFloat.
From Verif Require Import Base BaseProofs Output OutputSpec Props PropsSpec PdfData PagesSpec PagesProofs Crawl Inject InjectSpec ContentSpec ImgSpec Utf8 Float64 Ttf TtfSpec TtfProofs CharMap Subset TestFont Text TextSpec TextPlaceSpec TextCases TextFinal TextPlace TextPlaced
  Wrap FontObjects FontChainSpec FontChain Parse Png Crypto Api ApiSpec ApiProofs ApiIds ApiFrames ApiImages ApiMore ApiCases SaveSpec SaveDoc SaveWhole SaveLockSpec SaveLock SaveCheck SaveCases SaveDrawSpec SaveDraws SaveCalls SaveDrawn PlaceCases SaveDrawCases TextCases2
  BorderSpec BorderLines BorderProofs.
Open Scope Z_scope.
Open Scope list_scope.

Definition border_calls : list call := calls_first ++ [KBorder true].
Definition text_on (pg : Z) : call := KInsert (B"AB") pg (fofz 10) (fofz 20) (fofz 100) (fofz 20) 0 None.
Definition border_first : state := state_of border_calls new_pdft.
Definition border_text_state (pg : Z) : state := state_of [text_on pg] border_first.
Definition border_saved (pg : Z) : state * bytes := match saveTo plain_world 5 (plain_choices false) (border_text_state pg) with Ok (s', Ok F) => (s', F) | _ => (new_pdft, []) end.
Definition text_in (pg height : Z) : ctext := mkText (B"AB") None 0 12 pg (fofz 10) (fofz 20) (fofz 100) (fofz 20) 0 (fconst 1 10) (fofz height).

Lemma border_run : forall pg height, pg = 1 /\ height = 100 \/ pg = 2 /\ height = 200 -> exists s1 s s' F,
  history plain_world 5 border_calls new_pdft = Ok (s1, quiet border_calls) /\
  call_of plain_world 5 (text_on pg) s1 = Ok (s, None) /\ saveTo plain_world 5 (plain_choices false) s = Ok (s', Ok F) /\
  d_pdf (s_doc s) = shared_doc /\ s_prot s = None /\ (blen F <? 10 ^ 10) = true /\ pageHeight s1 pg = Ok (fofz height) /\
  s_cont s = [CLine false (fofz 0); CLine true (fconst 1 10); CText 0 (text_in pg height)] /\ map sfont_of (s_fonts s) = [lined (B"AB")].
Proof.
  intros pg height H. exists border_first, (border_text_state pg), (fst (border_saved pg)), (snd (border_saved pg)).
  destruct H as [( -> & ->)|( -> & ->)];
  (split; [vm_compute; reflexivity|]; split; [vm_compute; reflexivity|]; split; [vm_compute; reflexivity|]; split; [vm_compute; reflexivity|]; split; [vm_compute; reflexivity|];
   split; [vm_compute; reflexivity|]; split; [vm_compute; reflexivity|]; split; [vm_compute; reflexivity|]; vm_compute; reflexivity).
Qed.

Lemma lined_any : forall c, ct_text c = B"AB" -> ct_size c = 12 -> cell_ok c -> set_in lined_font (lined (B"AB")) c 2000 1600 (-400) (-150) 100.
Proof.
  intros c Et Es C. destruct (lined_set 0 0) as [R U L Un Th _ W Ri]. constructor; try assumption.
  - rewrite Et. exact R.
  - rewrite Et, Es. exact W.
Qed.

Lemma border_pages : forall pg height pid cid old, pg = 1 /\ height = 100 \/ pg = 2 /\ height = 200 -> own_page leaves35 shared_srcs pg pid cid old ->
  exists s1 s s' F p' before ops after,
    history plain_world 5 border_calls new_pdft = Ok (s1, quiet border_calls) /\ call_of plain_world 5 (text_on pg) s1 = Ok (s, None) /\ saveTo plain_world 5 (plain_choices false) s = Ok (s', Ok F) /\
    file_holds F p' None /\ page_shows (objs p') pid cid (old ++ [10] ++ before ++ ops ++ after) /\
    forall st, g_text st = false -> g_cm st = None -> exists st1 st2 ms0 ms br, draws before st st1 ms0 /\ draws ops st1 st2 (ms ++ br) /\ Forall no_stroke ms /\
      bordered true (if pg =? 1 then dotted_thin else line_style st) 10 20 100 20 (IZR height) br.
Proof.
  intros pg height pid cid old Hp Ow. destruct (border_run pg height Hp) as (s1 & s & s' & F & H1 & Ca & Sv & Ed & Pr & Sz & P1 & Ec & Ef). apply Z.ltb_lt in Sz.
  destruct (border_from_calls plain_world 5 (plain_choices false) border_calls s1 (quiet border_calls) (B"AB") pg (fofz 10) (fofz 20) (fofz 100) (fofz 20) 0 None s [] [] s s' F
    2 leaves35 shared_fonts shared_images shared_srcs None true H1)
    as (p' & ins & ph & before & ops & after & Fh & SD & Ep & Sh & Dr).
  - exists (quiet calls_first), (KBorder true, None), []. split; [reflexivity|]. split; [left; reflexivity|reflexivity].
  - exact Ca.
  - reflexivity.
  - exact Sv.
  - intros k A l. apply Permutation_refl.
  - exact Pr.
  - rewrite Ed. exact shared_ready.
  - rewrite Ed. exact shared_sources.
  - rewrite Ed. exact shared_apart.
  - cbn. lia.
  - rewrite Ed. vm_compute. discriminate.
  - exact Sz.
  - exists 5. split; [right; left; reflexivity|exact shared_pictured].
  - intros e He. rewrite Ec in He. destruct He as [<-|[<-|[<-|[]]]]; [exact Logic.I|exact Logic.I|]. cbn [well_set]. intros _.
    destruct (s_fonts s) as [|f fs]; [discriminate|]. exists f, lined_font, 2000, 1600, (-400), (-150), 100. split; [reflexivity|]. cbn [map] in Ef. assert (E : sfont_of f = lined (B"AB")) by congruence. rewrite E.
    apply lined_any; [reflexivity|reflexivity|]. constructor; unfold text_in; cbn [ct_x ct_y ct_w ct_h ct_line ct_height ct_size]; try (apply paperb_on; vm_compute; reflexivity); [|lia].
    destruct Hp as [( -> & ->)|( -> & ->)]; apply paperb_on; vm_compute; reflexivity.
  - rewrite P1 in Ep. assert (ph = fofz height) by congruence. subst ph.
    assert (V : forall n, (Z.abs n <= 2 ^ 53)%Z -> val (fofz n) = IZR n) by (intros n Hn; apply FloatReal.fofz_exact; exact Hn).
    rewrite !V in Dr by lia. exists s1, s, s', F, p', before, ops, after. repeat (split; [assumption|]). split; [exact (Sh pid cid old Ow)|exact Dr].
Qed.

Lemma border_case : exists s1 s s' F p' before ops after,
  history plain_world 5 border_calls new_pdft = Ok (s1, quiet border_calls) /\ call_of plain_world 5 (text_on 1) s1 = Ok (s, None) /\ saveTo plain_world 5 (plain_choices false) s = Ok (s', Ok F) /\
  file_of F p' /\ page_shows (objs p') 3 4 (B"q Q " ++ [10] ++ before ++ ops ++ after) /\
  forall st, g_text st = false -> g_cm st = None -> exists st1 st2 ms0 ms br, draws before st st1 ms0 /\ draws ops st1 st2 (ms ++ br) /\ Forall no_stroke ms /\
    bordered true dotted_thin 10 20 100 20 100 br.
Proof. exact (border_pages 1 100 3 4 (B"q Q ") (or_introl (conj eq_refl eq_refl)) page_one). Qed.
Lemma second_page : exists s1 s s' F p' before ops after,
  history plain_world 5 border_calls new_pdft = Ok (s1, quiet border_calls) /\ border_is (quiet border_calls) true /\ call_of plain_world 5 (text_on 2) s1 = Ok (s, None) /\ saveTo plain_world 5 (plain_choices false) s = Ok (s', Ok F) /\
  file_of F p' /\ page_shows (objs p') 5 6 (B"n " ++ [10] ++ before ++ ops ++ after) /\
  exists st1 st2 ms0 ms br, draws before plain_state st1 ms0 /\ draws ops st1 st2 (ms ++ br) /\ Forall no_stroke ms /\
    List.length br = 4%nat /\ Forall (fun m => match m with Stroke _ wd dash => wd = 100 /\ dash = ([], 0) | _ => False end) br.
Proof.
  destruct (border_pages 2 200 5 6 (B"n ") (or_intror (conj eq_refl eq_refl)) page_two) as (s1 & s & s' & F & p' & before & ops & after & H1 & Ca & Sv & Fo & Sh & Dr).
  exists s1, s, s', F, p', before, ops, after. split; [exact H1|]. split; [exists (quiet calls_first), (KBorder true, None), []; split; [reflexivity|]; split; [left; reflexivity|reflexivity]|].
  split; [exact Ca|]. split; [exact Sv|]. split; [exact Fo|]. split; [exact Sh|].
  destruct (Dr plain_state eq_refl eq_refl) as (st1 & st2 & ms0 & ms & br & D1 & D2 & N & (x0 & x1 & x2 & x3 & y0 & y1 & hf & -> & _)).
  exists st1, st2, ms0, ms. eexists. split; [exact D1|]. split; [exact D2|]. split; [exact N|]. split; [reflexivity|]. repeat (constructor; [split; reflexivity|]). constructor.
Qed.

(** After an Open that failed. *)
Definition failed_calls : list call := [KOpen shared_file; KOpen (B"x"); KAddFont (B"T") (Some lined_font) [0; 0; 0; 0]; KSetFont (B"T") [] 12; text_on 1].
Definition text_after : ctext := mkText (B"AB") None 0 12 1 (fofz 10) (fofz 20) (fofz 100) (fofz 20) 0 (fofz 1) (fofz 100).
Lemma failed_run : exists s s' F, history plain_world 5 failed_calls new_pdft = Ok (s, [(KOpen shared_file, None); (KOpen (B"x"), Some EOther)] ++ quiet (skipn 2 failed_calls)) /\
  saveTo plain_world 5 (plain_choices false) s = Ok (s', Ok F) /\ s_cont s = [CLine false (fofz 0); CText 0 text_after] /\ map sfont_of (s_fonts s) = [lined (B"AB")].
Proof.
  exists (state_of failed_calls new_pdft). eexists. eexists. split; [vm_compute; reflexivity|]. split; [vm_compute; reflexivity|]. split; vm_compute; reflexivity.
Qed.
Lemma failed_open : exists cs s log c f s' F, history plain_world 5 cs new_pdft = Ok (s, log) /\ Forall (fun e => match fst e with KBorder _ => False | _ => True end) log /\
  saveTo plain_world 5 (plain_choices false) s = Ok (s', Ok F) /\ In (CText 0 c) (s_cont s) /\ nth_error (s_fonts s) 0 = Some f /\
  forall index st, g_text st = false -> exists o st2 ms br, text_stream (sfont_of f) index c = Ok o /\ draws o st st2 (ms ++ br) /\ List.length br = 4%nat /\
    Forall (fun m => match m with Stroke _ _ _ => True | _ => False end) br.
Proof.
  destruct failed_run as (s & s' & F & H & Sv & Ec & Ef). destruct (s_fonts s) as [|f fs] eqn:E; [discriminate|]. assert (Es : sfont_of f = lined (B"AB")) by (cbn [map] in Ef; congruence).
  exists failed_calls, s, ([(KOpen shared_file, None); (KOpen (B"x"), Some EOther)] ++ quiet (skipn 2 failed_calls)), text_after, f, s', F. split; [exact H|]. split; [unfold failed_calls, quiet; cbn [skipn map app]; repeat (constructor; [exact Logic.I|]); constructor|].
  split; [exact Sv|]. split; [rewrite Ec; right; left; reflexivity|]. split; [rewrite E; reflexivity|]. intros index st T. rewrite Es.
  assert (C : cell_ok text_after) by (constructor; unfold text_after; cbn [ct_x ct_y ct_w ct_h ct_line ct_height ct_size]; try (apply paperb_on; vm_compute; reflexivity); lia).
  destruct (decoration_placed _ _ _ _ _ _ _ _ (lined_any text_after eq_refl eq_refl C) index st T) as (o & st2 & ms & ul & br & Eo & D & _ & _ & Br).
  assert (G : fgt (ct_line text_after) (fofz 0) = true) by (vm_compute; reflexivity). rewrite G in Br. destruct Br as (x0 & x1 & x2 & x3 & y0 & y1 & Eb & _).
  exists o, st2, (ms ++ ul), br. split; [exact Eo|]. split; [rewrite <- app_assoc; exact D|]. rewrite Eb. split; [reflexivity|]. repeat (constructor; [exact Logic.I|]). constructor.
Qed.
