(** Concrete cases for Prop_Chain.v. *)
From Coq Require Import String List ZArith Lia Bool Permutation.
From Coq.Floats Require Import SpecFloat.
From Verif Require Import Base Output Props PdfData PdfSyntax Crawl Inject Float64 Ttf TtfSpec Subset CharMap TestFont FontObjects FontChainSpec FontChain Parse Api ApiCases.
Open Scope Z_scope.
Open Scope list_scope.

Definition two_fonts : list call :=
  [KOpen sample_file; KAddFont (B"T") (Some test_font) [0; 0; 0; 0]; KAddFont (B"U") (Some test_font) [0; 0; 0; 0]; KSetFont (B"T") [] 12; put_text (B"AB")].

Lemma chain_case : exists s fs' f f', after two_fonts = Ok s /\ build_fonts plain_world [0; 1]%nat (s_fonts s) 5 = (fs', Ok 17) /\
  nth_error (s_fonts s) 0 = Some f /\ buildable f /\ fd_map f = [(65, 1); (66, 2)] /\ nth_error fs' 0 = Some f' /\ fd_id f' = 7 /\
  the_dict (font_objs f') 7 [(B"BaseFont", PName (B"T")); (B"DescendantFonts", PArr [PRef 8 0]); (B"Encoding", PName (B"Identity-H"));
    (B"Subtype", PName (B"Type0")); (B"ToUnicode", PRef 9 0); (B"Type", PName (B"Font"))].
Proof.
  eexists. eexists. eexists. eexists. split; [vm_compute; reflexivity|]. split; [vm_compute; reflexivity|]. split; [vm_compute; reflexivity|]. split.
  { split; [reflexivity|]. split.
    - repeat (constructor; [cbn; auto|]). constructor.
    - repeat (constructor; [split; unfold code; cbn [fst snd]; lia|]). constructor. }
  split; [vm_compute; reflexivity|]. split; [vm_compute; reflexivity|]. split; [vm_compute; reflexivity|].
  eexists. exists [10]. split.
  - exists []. eexists. split; [vm_compute; reflexivity|]. split; [vm_compute; reflexivity|]. intros q Hq. cbn [app In] in Hq.
    repeat (destruct Hq as [<-|Hq]; [vm_compute; discriminate|]). destruct Hq.
  - exists 30%nat. vm_compute. reflexivity.
Qed.

Lemma second_save : exists F s o d rest,
  saves false [KOpen sample_file; KAddFont (B"T") (Some test_font) [0; 0; 0; 0]; KSetFont (B"T") [] 12; put_text (B"A"); KSave (plain_choices false); put_text (B"B")] = Ok F /\
  contains (B"<0002>] TJ") F = true /\ after [KOpen F] = Ok s /\ getObj 8 (objs (d_pdf (s_doc s))) = Ok o /\ reads (odata o) (PDict d) rest /\
  PdfSyntax.lookup (B"Subtype") d = Some (PName (B"CIDFontType2")) /\ PdfSyntax.lookup (B"W") d = Some (PArr [PInt 1; PArr [PInt 300]]).
Proof.
  eexists. eexists. eexists. eexists. eexists. split; [vm_compute; reflexivity|]. split; [vm_compute; reflexivity|]. split; [vm_compute; reflexivity|].
  split; [vm_compute; reflexivity|]. split; [exists 40%nat; vm_compute; reflexivity|]. split; vm_compute; reflexivity.
Qed.
