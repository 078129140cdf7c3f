(** Saving succeeds: the fonts, in terms of their files. *)
From Coq Require Import String List ZArith Lia Bool Permutation.
From Coq.Floats Require Import SpecFloat.
From Verif Require Import Base BaseProofs CryptoSpec Ttf TtfSpec TtfProofs TtfTables Subset CharMap FontFile FontGlyphs FontClosure FontEmbed FontTotal FontFinal.
From Verif Require Import Output Props PropsSpec PdfData PagesSpec Crawl Inject InjectSpec ImgSpec Text Wrap Parse Api ApiSpec ApiIds ApiFresh ContentSpec SaveSpec SaveFonts SaveImages SaveWhole SaveGoesSpec SaveGoes SaveHeld SaveGoesLock.
Open Scope Z_scope.
Open Scope list_scope.

(** A font file with all that is needed to embed any of its [n] glyphs: outlines,
    widths, and the tables that are copied, which are read with their padding. *)
Record complete_font (d beyond : bytes) (n : Z) : Prop := {
  cf_sound : sound_font d n;
  cf_some : 0 < n;
  cf_tables : tables_inside d (blen d + blen beyond);
  cf_units : exists u, units_per_em d u /\ 0 < u;
  cf_widths : forall g, 0 <= g < n -> exists w, advance d g w }.

Lemma complete_goes : forall d n f, complete_font d (fd_beyond f) n -> parseTtf d = Ok (fd_ttf f) -> within n (fd_map f) -> font_goes f.
Proof.
  intros d n f C P W. pose proof (cf_sound _ _ _ C) as S. pose proof (sf_bytes _ _ S) as Hb. pose proof (parse_ok _ _ Hb P) as Pd.
  assert (In0 : forall g, In g (map snd (fd_map f)) -> 0 <= g < n) by (intros g Hg; apply in_map_iff in Hg; destruct Hg as ((r & g') & <- & Hg); apply (W r g' Hg)).
  split.
  - intros g Hg. apply In0 in Hg. destruct (cf_widths _ _ _ C g Hg) as (w & A). destruct (cf_units _ _ _ C) as (u & U & Pu). exists (w * 1000 / u). apply (glyph_width_ok d); auto. lia.
  - assert (D0 : forall g, 0 <= g < n -> exists o, outline d g o) by (intros g Hg; destruct (sf_shape _ _ S g Hg) as (o & Ho & _); eauto).
    apply (make_font_total d); auto.
    + apply Forall_forall. intros g Hg. apply (sf_shape _ _ S). apply In0. exact Hg.
    + apply D0. pose proof (cf_some _ _ _ C). lia.
    + intros v o c Hv Ho Hc. apply D0. split; [|eapply (sf_parts _ _ S); eauto]. eapply component_range; [|exact Hc]. eapply outline_bytes; eauto.
    + apply (cf_tables _ _ _ C).
Qed.

(** A state that can be saved: the document is ready, the entries that are read
    can be read, some page has resources, the fonts are complete, and there are
    object numbers left. *)
Record can_save (w : world) (fuel : nat) (s : state) (rid : Z) (ts : list tree) (fi xi : Z -> res_place) (srcs : list (option (Z * bytes))) : Prop := {
  cs_ready : ready_document (d_pdf (s_doc s)) rid ts fi xi;
  cs_sources : Forall2 (source (w_inflate w) (objs (d_pdf (s_doc s)))) (flat_map leaves ts) srcs;
  cs_apart : forall c, In c (content_ids srcs) -> ~ In c (root (d_pdf (s_doc s)) :: rid :: flat_map tree_ids ts) /\ ~ page_object (flat_map leaves ts) fi c;
  cs_depth : (depth (Node rid ts) <= fuel)%nat;
  cs_names : forall L fps, In L (flat_map leaves ts) -> offered (fi L) = Some fps -> Forall readable_font fps;
  cs_some : exists L, In L (flat_map leaves ts) /\ xi L <> NoRes;
  cs_known : forall L, In L (flat_map leaves ts) -> recognised (objs (d_pdf (s_doc s))) L (fi L);
  cs_fonts : Forall (fun f => exists d n, parseTtf d = Ok (fd_ttf f) /\ complete_font d (fd_beyond f) n /\ within n (fd_map f)) (s_fonts s);
  cs_room : maxID (objs (d_pdf (s_doc s))) + 6 * Z.of_nat (List.length (names_of s)) + Z.of_nat (List.length (s_imgs s)) < 2 ^ 63 }.

Theorem save_unlocked : forall w fuel ch cs s log rid ts fi xi srcs,
  history w fuel cs new_pdft = Ok (s, log) -> fair (ch_ord ch) -> can_save w fuel s rid ts fi xi srcs ->
  exists s' F, saveTo w fuel ch (unlocked s) = Ok (s', Ok F).
Proof.
  intros w fuel ch cs s log rid ts fi xi srcs H Fr [RD Sr Ap Dp Rf Sm Rc Fo Ro]. apply (save_runs w fuel ch (unlocked s) rid ts fi xi srcs); auto.
  - destruct (history_held _ _ _ _ _ _ H new_held0) as [H1 H2]. constructor; assumption.
  - assert (N : names_ok s) by (eapply history_names_ok; [exact H|split; constructor]). exact N.
  - eapply Forall_impl; [|exact Fo]. cbv beta. intros f (d & n & P & C & W). eapply complete_goes; eauto.
Qed.
Lemma unlocked_same : forall s, s_prot s = None -> unlocked s = s.
Proof. intros s H. unfold unlocked. rewrite <- H. destruct s. reflexivity. Qed.
Theorem save_succeeds_files : forall w fuel ch cs s log rid ts fi xi srcs,
  history w fuel cs new_pdft = Ok (s, log) -> fair (ch_ord ch) -> can_save w fuel s rid ts fi xi srcs -> s_prot s = None ->
  exists s' F, saveTo w fuel ch s = Ok (s', Ok F).
Proof. intros w fuel ch cs s log rid ts fi xi srcs H Fr C Pr. rewrite <- (unlocked_same s Pr). eapply save_unlocked; eauto. Qed.
Theorem save_locked_files : forall w fuel ch cs s log rid ts fi xi srcs pr,
  history w fuel cs new_pdft = Ok (s, log) -> fair (ch_ord ch) -> can_save w fuel s rid ts fi xi srcs -> s_prot s = Some pr ->
  exists s0 os last r, saveTo w fuel ch (unlocked s) = Ok (s0, Ok (toStream os last r None)) /\
    ((exists s' F, saveTo w fuel ch s = Ok (s', Ok F)) <-> Forall (fun o => ends_stream (odata o)) os) /\
    ((exists o, In o os /\ ~ ends_stream (odata o)) -> saveTo w fuel ch s = Panic).
Proof.
  intros w fuel ch cs s log rid ts fi xi srcs pr H Fr C Pr. destruct (save_unlocked _ _ _ _ _ _ _ _ _ _ _ H Fr C) as (s0 & F0 & Sv).
  destruct (save_locked _ _ _ _ _ _ _ Pr Sv) as (os & last & r & -> & A1 & A2). exists s0, os, last, r. split; [exact Sv|]. split; [split; [|exact A1]|].
  - intros (s' & F & Sv'). apply Forall_forall. intros o Ho. destruct (ends_dec (odata o)) as [E|E]; [exact E|]. rewrite (A2 o Ho E) in Sv'. discriminate.
  - intros (o & Ho & N). eauto.
Qed.

(** Without resources in some page nothing is saved, locked or not. *)
Theorem save_has_resources : forall w fuel ch cs s log s' F rid ts fi xi, history w fuel cs new_pdft = Ok (s, log) -> fair (ch_ord ch) ->
  ready_document (d_pdf (s_doc s)) rid ts fi xi -> saveTo w fuel ch s = Ok (s', Ok F) -> exists L, In L (flat_map leaves ts) /\ xi L <> NoRes.
Proof.
  intros w fuel ch cs s log s' F rid ts fi xi Hh Fr RD Sv. assert (Nm : NoDup (map snd (names_of s))) by (apply (history_names_ok _ _ _ _ _ _ Hh); split; constructor).
  destruct (save_steps _ _ _ _ _ _ Sv Fr) as (order & order2 & fs1 & next & p1 & idx & p4 & names & p5 & os & enc & P1 & P2 & Eb & Ef & Ei & _).
  assert (NDo : NoDup order) by (eapply Permutation_NoDup; [symmetry; exact P1|exact Nm]). assert (P21 : Permutation order2 order) by (rewrite P1; exact P2).
  pose proof (new_numbers w s rid ts fi xi RD _ _ _ _ _ _ NDo Eb Ef order2 P21) as N3.
  exact (SaveImages.first_page _ _ _ _ _ RD _ _ _ _ Fr Ef _ _ _ _ N3 Ei).
Qed.
