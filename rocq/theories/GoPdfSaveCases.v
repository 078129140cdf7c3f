(** Cases of C91. *)
From Coq Require Import String List ZArith Lia Bool.
From Coq.Floats Require Import SpecFloat.
From Verif Require Import Base BaseProofs Utf8 Output Png Float64 Ttf TtfSpec Subset Text TestFont TextCases SaveGoesFinal SaveGoesCases GoPdf GoPdfSpec GoPdfSetSpec GoPdfCases GoPdfFaults GoPdfSaveSpec.
Open Scope Z_scope.
Open Scope list_scope.

(** ** A font that is fit *)
Lemma test_glyphs : forall r g, glyph_index test_ttf r = Ok g -> g < 5.
Proof.
  intros r g. unfold glyph_index. destruct (Z.leb_spec r 65535) as [L|L].
  - unfold glyph4. change (Z.to_nat (segCount test_ttf)) with 3%nat. cbn [seg_of]. change (at_ (endCount test_ttf) 0) with (Ok 66). cbn [bind].
    destruct (Z.leb_spec r 66) as [L1|L1].
    + cbn [bind]. change (at_ (startCount test_ttf) 0) with (Ok 65). change (at_ (idRangeOffset test_ttf) 0) with (Ok 0). change (at_ (idDelta test_ttf) 0) with (Ok 65472). cbn [bind].
      destruct (Z.ltb_spec r 65); intros Q; [injection Q as <-; lia|]. change (0 =? 0) with true in Q. cbv iota in Q. injection Q as <-. assert (r = 65 \/ r = 66) as [->| ->] by lia; vm_compute; reflexivity.
    + change (0 + 1) with 1. change (at_ (endCount test_ttf) 1) with (Ok 68). cbn [bind]. destruct (Z.leb_spec r 68) as [L2|L2].
      * cbn [bind]. change (at_ (startCount test_ttf) 1) with (Ok 67). cbn [bind]. destruct (Z.ltb_spec r 67); intros Q; [lia|]. assert (r = 67 \/ r = 68) as [->| ->] by lia; vm_compute in Q; injection Q as <-; reflexivity.
      * change (1 + 1) with 2. change (at_ (endCount test_ttf) 2) with (Ok 65535). cbn [bind]. destruct (Z.leb_spec r 65535); [|lia]. cbn [bind]. change (at_ (startCount test_ttf) 2) with (Ok 65535). cbn [bind].
        destruct (Z.ltb_spec r 65535); intros Q; [injection Q as <-; lia|]. assert (r = 65535) as -> by lia. vm_compute in Q. injection Q as <-. reflexivity.
  - change (groups test_ttf) with [(128512, 128513, 1)]. cbn [glyph12]. destruct ((128512 <=? r) && (r <? 128513)) eqn:E; intros H; [|discriminate]. injection H as <-. apply andb_prop in E. lia.
Qed.
Lemma test_fit : fit_font test_font [0; 0; 0; 0].
Proof. exists 5. split; [exact test_complete|]. intros t r g P. rewrite test_parses in P. injection P as <-. apply test_glyphs. Qed.

(** ** A protected document with a text and a picture *)
Definition save_prog : list gcall := [AddFont (B"T") false 0 (Some test_font) [0; 0; 0; 0]; std_page; SetFont (B"T") 0 12; Text (B"AB"); ImageBy (B"x") alpha_png [] (fofz 1) (fofz 2) (Some (fofz 3, fofz 4))].
Definition save_run := run gw_id [] locked_cfg save_prog.
Lemma save_case : r_ok save_run = true /\ no_errors (r_trace save_run) = true /\ map (fun x => snd (fst x)) (r_trace save_run) = save_prog /\ fit_fonts (r_trace save_run) /\ no_palette gw_id (r_trace save_run) /\
  match g_bytes gw_id (r_state save_run) with Ok (_, F) => blen F | _ => 0 end = 2873.
Proof.
  split; [vm_compute; reflexivity|]. split; [vm_compute; reflexivity|]. assert (M : map (fun x => snd (fst x)) (r_trace save_run) = save_prog) by (vm_compute; reflexivity).
  split; [exact M|]. split; [|split].
  - intros q fam k st d bey I. apply (in_map (fun x => snd (fst x))) in I. rewrite M in I. cbn [fst snd] in I. destruct I as [I|[I|[I|[I|[I|[]]]]]]; try discriminate I.
    assert (d = test_font) as -> by congruence. assert (bey = [0; 0; 0; 0]) as -> by congruence. exact test_fit.
  - assert (P : pictures (r_trace save_run) = [(B"x", alpha_png, [])]) by (vm_compute; reflexivity). intros p Hp. rewrite P in Hp. destruct Hp as [<-|[]]. cbn [fst snd]. intros info Hi C.
    assert (X : match parseImg (gw_config gw_id) (gw_inflate gw_id) (gw_compress gw_id) [] alpha_png with Ok i => beqb (colspace i) (B"Indexed") | _ => false end = false) by (vm_compute; reflexivity).
    rewrite Hi in X. rewrite C in X. discriminate X.
  - vm_compute. reflexivity.
Qed.

(** ** Fonts that are accepted and cannot be saved *)

(** The last table of the file has 6 bytes, and the file ends there; the table is
    read with the two bytes that would follow it, and there is one byte in the memory
    of the file (ReadAll leaves at least one). *)
Definition short_prog : list gcall := [AddFont (B"T") false 0 (Some test_font) [0]; std_page; SetFont (B"T") 0 12; Text (B"A")].
Definition short_run := run gw_id [] page_cfg short_prog.
Lemma short_case : exists w rnd cfg g0 t g, g_start rnd cfg gp0 = Ok g0 /\ runs w g0 t g /\ map (fun x => snd (fst x)) t = short_prog /\ Forall (fun x => snd x = None) t /\ no_palette w t /\ g_bytes w g = Panic.
Proof.
  destruct (r_parts gw_id [] page_cfg short_prog short_run eq_refl ltac:(vm_compute; reflexivity)) as (g0 & S & R & M).
  exists gw_id, [], page_cfg, g0, (r_trace short_run), (r_state short_run). split; [exact S|]. split; [exact R|]. split; [exact M|]. split; [apply no_errors_ok; vm_compute; reflexivity|]. split; [|vm_compute; reflexivity].
  intros p Hp. assert (P : pictures (r_trace short_run) = []) by (vm_compute; reflexivity). rewrite P in Hp. destruct Hp.
Qed.
