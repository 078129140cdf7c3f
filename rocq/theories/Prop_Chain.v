(** Embedded fonts are complete: the property C59. *)
From Coq Require Import String List ZArith Lia Bool Permutation.
From Coq.Floats Require Import SpecFloat.
From Verif Require Import Base Output Props PdfData PdfSyntax Crawl Inject Float64 Ttf TtfSpec Subset CharMap TestFont FontObjects FontChainSpec FontChain Parse Api ApiCases ChainCases.
Open Scope Z_scope.
Open Scope list_scope.

(** When the fonts of a save are built, then among the objects that are left (the
    old ones, those of all fonts, later ones) every font is complete: the number
    the page resources will name is that of a Type 0 font, which refers to a
    CIDFont with the widths of its characters and a descriptor, to the ToUnicode
    map, and from the descriptor to the font program.  [embeds] and [buildable]
    are in FontChain.v: the font is saved for the first time, its name has no
    delimiters but slashes, its characters are below 65536.  Missing: that the
    later steps of the save leave these objects alone (C72 for one kind of document). *)
Theorem C59_fonts_complete_partial : forall w ids fs n fs' m old more, build_fonts w ids fs n = (fs', Ok m) -> NoDup ids ->
  NoDup (map oid (old ++ more)) -> (forall o, In o old -> oid o <= n) -> (forall o, In o more -> m < oid o) ->
  forall k f, In k ids -> nth_error fs k = Some f -> buildable f -> forall ids', Permutation ids' ids ->
  exists f', nth_error fs' k = Some f' /\ n < fd_id f' /\ embeds w (old ++ flat_map (objs_at fs') ids' ++ more) f (fd_id f').
Proof. exact fonts_embedded. Qed.
Print Assumptions C59_fonts_complete_partial.

(** Two fonts, the text in the first: the numbers from 7 and from 13 on. *)
Example C59_case : exists s fs' f f', after two_fonts = Ok s /\ build_fonts plain_world [0; 1]%nat (s_fonts s) 5 = (fs', Ok 17) /\
  nth_error (s_fonts s) 0 = Some f /\ buildable f /\ fd_map f = [(65, 1); (66, 2)] /\ nth_error fs' 0 = Some f' /\ fd_id f' = 7 /\
  the_dict (font_objs f') 7 [(B"BaseFont", PName (B"T")); (B"DescendantFonts", PArr [PRef 8 0]); (B"Encoding", PName (B"Identity-H"));
    (B"Subtype", PName (B"Type0")); (B"ToUnicode", PRef 9 0); (B"Type", PName (B"Font"))].
Proof. exact chain_case. Qed.

(** Refuted for fonts that were saved before: the objects' texts are appended to
    the earlier ones.  Save, write a B, save again: the B's code is shown, but the
    CIDFont in the second file has a width for A only. *)
Theorem C59_second_save_refuted : exists F s o d rest,
  saves false [KOpen sample_file; KAddFont (B"T") (Some test_font) [0; 0; 0; 0]; KSetFont (B"T") [] 12; put_text (B"A"); KSave (plain_choices false); put_text (B"B")] = Ok F /\
  contains (B"<0002>] TJ") F = true /\ after [KOpen F] = Ok s /\ getObj 8 (objs (d_pdf (s_doc s))) = Ok o /\ reads (odata o) (PDict d) rest /\
  PdfSyntax.lookup (B"Subtype") d = Some (PName (B"CIDFontType2")) /\ PdfSyntax.lookup (B"W") d = Some (PArr [PInt 1; PArr [PInt 300]]).
Proof. exact second_save. Qed.
Print Assumptions C59_second_save_refuted.
