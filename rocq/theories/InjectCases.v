(** Documents on which the font theorems apply, and documents they do not cover. *)
From Coq Require Import String List ZArith Lia Bool Permutation.
From Verif Require Import Base BaseProofs Output Props PropsSpec PdfData PagesSpec PagesProofs PagesEdit Crawl Inject
  InjectSpec InjectVisits InjectPages InjectTidy InjectFonts InjectFinal InjectCheck.
Open Scope Z_scope.
Open Scope list_scope.

Definition ido : morder := fun _ _ l => l.
Definition revo : morder := fun _ _ l => rev l.
Lemma ido_fair : fair ido.
Proof. intros t A l. apply Permutation_refl. Qed.
Lemma revo_fair : fair revo.
Proof. intros t A l. apply Permutation_sym, Permutation_rev. Qed.

Definition head_objs (kids : bytes) : list obj :=
  [mkObj 1 (B"<</Type /Catalog /Pages 2 0 R>>"); mkObj 2 (B"<</Type /Pages /Kids [" ++ kids ++ B"] /Count 1>>")].

(** ** A document with one page of every kind *)
Definition mixed : pdf := mkPdf 1 (head_objs (B"3 0 R 4 0 R") ++ [
  mkObj 3 (B"<</Type /Page /Parent 2 0 R /Resources <</Font <</F1 20 0 R /TT7 21 0 R>> /ProcSet [/PDF]>> /Contents 30 0 R>>");
  mkObj 4 (B"<</Type /Pages /Parent 2 0 R /Kids [5 0 R 6 0 R 7 0 R 8 0 R] /Count 4>>");
  mkObj 5 (B"<</Type /Page /Parent 4 0 R /Resources <</Font 10 0 R>> >>");
  mkObj 6 (B"<</Type /Page /Parent 4 0 R /Resources 11 0 R>>");
  mkObj 7 (B"<</Type /Page /Parent 4 0 R /Resources 12 0 R>>");
  mkObj 8 (B"<</Type /Page /Parent 4 0 R>>");
  mkObj 10 (B"<</F2 21 0 R>>"); mkObj 11 (B"<</ProcSet [/PDF] /Font <</F3 20 0 R>> >>"); mkObj 12 (B"<</Font 10 0 R /ProcSet [/PDF]>>");
  mkObj 20 (B"<</Type /Font>>"); mkObj 21 (B"<</Type /Font>>")]).
Definition mixed_tree : list tree := [Leaf 3; Node 4 [Leaf 5; Leaf 6; Leaf 7; Leaf 8]].

Lemma mixed_tidy : tidy (B"Font") mixed 2 mixed_tree (place_of (B"Font") (objs mixed)).
Proof. apply tidyb_tidy. vm_compute. reflexivity. Qed.
Lemma mixed_writable : forall L, In L [3; 5; 6; 7] -> writable_page (objs mixed) (flat_map leaves mixed_tree) (place_of (B"Font") (objs mixed)) L.
Proof. intros L H. cbn [In] in H. destruct H as [<-|[<-|[<-|[<-|[]]]]]; (apply writableb_is; vm_compute; reflexivity). Qed.
Lemma mixed_runs : exists p', injectFonts revo mixed [(0, 40); (1, 44)] = Ok (p', [(1, 8); (0, 9)]).
Proof. eexists. vm_compute. reflexivity. Qed.
Lemma numbered_check : forall p n, 0 <= n < 2 ^ 63 ->
  forallb (fun c => ((33 <=? c) && (c <? 127) && negb (c =? 95) && negb ((48 <=? c) && (c <=? 57)))%bool) p = true -> numbered_name (p ++ itoa n).
Proof.
  intros p n H F. exists p, n. split; [reflexivity|]. split; [exact H|]. apply Forall_forall. intros c Hc. apply (proj1 (forallb_forall _ _) F) in Hc.
  rewrite !andb_true_iff, !negb_true_iff, andb_false_iff in Hc. lia.
Qed.

(** On the page with everything in it, TT7 still stands for object 21 and the
    new names F8 and F9 for the new objects. *)
Lemma mixed_case : exists p' fps fps', injectFonts revo mixed [(0, 40); (1, 44)] = Ok (p', [(1, 8); (0, 9)]) /\
  page_fonts (objs mixed) 3 fps /\ page_fonts (objs p') 3 fps' /\ font_named fps (B"TT7") 21 /\
  font_named fps' (B"TT7") 21 /\ font_named fps' (B"F8") 44 /\ font_named fps' (B"F9") 40 /\ List.length fps' = 4%nat.
Proof.
  destruct mixed_runs as (p' & R).
  assert (Pf : page_fonts (objs mixed) 3 [mkProp (B"F1") (B"20 0 R"); mkProp (B"TT7") (B"21 0 R")]) by (apply pf_of_is; vm_compute; reflexivity).
  assert (In3 : In 3 (flat_map leaves mixed_tree)) by (left; reflexivity).
  assert (Old : font_named [mkProp (B"F1") (B"20 0 R"); mkProp (B"TT7") (B"21 0 R")] (B"TT7") 21).
  { exists (B"21 0 R"). split; [apply value_iff; reflexivity|reflexivity]. }
  destruct (old_kept revo mixed p' _ _ 2 mixed_tree _ revo_fair mixed_tidy R 3 _ In3 (mixed_writable 3 (or_introl eq_refl)) Pf) as (f1 & P1 & Ln & K1).
  { constructor; [|constructor; [|constructor]]; cbn [pkey].
    - apply (numbered_check (B"F") 1); [lia|reflexivity].
    - apply (numbered_check (B"TT") 7); [lia|reflexivity]. }
  destruct (new_reachable revo mixed p' _ _ 2 mixed_tree _ revo_fair mixed_tidy R) with (L := 3) (fps := [mkProp (B"F1") (B"20 0 R"); mkProp (B"TT7") (B"21 0 R")])
    as (f2 & P2 & K2); [repeat constructor; cbn; lia|exact In3|exact (mixed_writable 3 (or_introl eq_refl))|exact Pf|].
  assert (f2 = f1).
  { assert (Hp : pf_of (B"Font") (objs p') 3 = Some f1).
    { clear K1 K2 P2 f2 Ln. assert (E : exists q, pf_of (B"Font") (objs p') 3 = Some q).
      { assert (X : injectFonts revo mixed [(0, 40); (1, 44)] = Ok (p', [(1, 8); (0, 9)])) by exact R. vm_compute in X. inversion X; subst p'. eexists. vm_compute. reflexivity. }
      destruct E as (q & E). rewrite (pf_of_only _ _ _ _ _ E P1). exact E. }
    eapply pf_of_only; eauto. }
  subst f2. exists p', [mkProp (B"F1") (B"20 0 R"); mkProp (B"TT7") (B"21 0 R")], f1. split; [exact R|]. split; [exact Pf|]. split; [exact P1|]. split; [exact Old|]. split; [apply K1; [unfold is_int; lia|exact Old]|].
  split; [|split].
  - destruct (K2 1 8 (or_introl eq_refl)) as (id & Hid & Fn). destruct Hid as [E|[E|[]]]; inversion E; subst. exact Fn.
  - destruct (K2 0 9 (or_intror (or_introl eq_refl))) as (id & Hid & Fn). destruct Hid as [E|[E|[]]]; inversion E; subst. exact Fn.
  - rewrite Ln. reflexivity.
Qed.

Lemma mixed_unshared : forall L, In L [3; 5; 6; 7] -> unshared (flat_map leaves mixed_tree) (place_of (B"Font") (objs mixed)) L.
Proof.
  intros L H r L' Hr HL' Hr'. change (flat_map leaves mixed_tree) with [3; 5; 6; 7; 8] in HL'. cbn [In] in H, HL'.
  destruct H as [<-|[<-|[<-|[<-|[]]]]]; vm_compute in Hr; (destruct Hr as [<-|[]] || destruct Hr);
    destruct HL' as [<-|[<-|[<-|[<-|[<-|[]]]]]]; vm_compute in Hr'; (destruct Hr' as [X|[]] || destruct Hr'); solve [reflexivity|discriminate].
Qed.
Lemma mixed_ready : forall L fps, In L (flat_map leaves mixed_tree) -> page_fonts (objs mixed) L fps ->
  writable_page (objs mixed) (flat_map leaves mixed_tree) (place_of (B"Font") (objs mixed)) L /\
  unshared (flat_map leaves mixed_tree) (place_of (B"Font") (objs mixed)) L /\ Forall (fun q => numbered_name (pkey q)) fps.
Proof.
  intros L fps H Pf. destruct (page_of _ _ _ _ mixed_tidy L H) as (ps & P & _).
  apply (page_place _ _ _ _ _ _ P) in Pf. change (flat_map leaves mixed_tree) with [3; 5; 6; 7; 8] in H. cbn [In] in H.
  destruct H as [<-|[<-|[<-|[<-|[<-|[]]]]]]; vm_compute in Pf; try discriminate; (split; [apply mixed_writable; cbn [In]; auto|]);
    (split; [apply mixed_unshared; cbn [In]; auto 6|]); inversion Pf; subst fps; repeat (apply Forall_cons || apply Forall_nil); cbn [pkey].
  - apply (numbered_check (B"F") 1); [lia|reflexivity].
  - apply (numbered_check (B"TT") 7); [lia|reflexivity].
  - apply (numbered_check (B"F") 2); [lia|reflexivity].
  - apply (numbered_check (B"F") 3); [lia|reflexivity].
  - apply (numbered_check (B"F") 2); [lia|reflexivity].
Qed.
(** The resource object 11 keeps each of its keys, once. *)
Lemma mixed_unique : exists p' ps', injectFonts revo mixed [(0, 40); (1, 44)] = Ok (p', [(1, 8); (0, 9)]) /\
  dict (objs p') 11 ps' /\ NoDup (map pkey ps') /\ In (B"ProcSet") (map pkey ps') /\ In (B"Font") (map pkey ps').
Proof.
  destruct mixed_runs as (p' & R).
  assert (D : dict (objs mixed) 11 (props_of (objs mixed) 11)) by (apply propsb_dict; vm_compute; reflexivity).
  assert (K : map pkey (props_of (objs mixed) 11) = [B"ProcSet"; B"Font"]) by (vm_compute; reflexivity).
  destruct (keys_unique _ _ _ _ _ _ _ _ revo_fair mixed_tidy R mixed_ready 11 _ D) as (ps' & D' & N & Ic).
  { rewrite K. constructor; [intros [E|[]]; vm_compute in E; discriminate|constructor; [intros []|constructor]]. }
  rewrite K in Ic. exists p', ps'. split; [exact R|]. split; [exact D'|]. split; [exact N|]. split; apply Ic; [left|right; left]; reflexivity.
Qed.

(** ** A page three levels down is neither looked at nor changed *)
Definition deep : pdf := mkPdf 1 (head_objs (B"3 0 R") ++ [
  mkObj 3 (B"<</Type /Pages /Parent 2 0 R /Kids [4 0 R] /Count 1>>");
  mkObj 4 (B"<</Type /Pages /Parent 3 0 R /Kids [5 0 R] /Count 1>>");
  mkObj 5 (B"<</Type /Page /Parent 4 0 R /Resources <</Font <</F1 20 0 R>> >> >>"); mkObj 20 (B"<</Type /Font>>")]).
Definition deep_tree : tree := Node 2 [Node 3 [Node 4 [Leaf 5]]].
Lemma deep_case : page_tree deep deep_tree /\ injectFonts ido deep [(0, 40)] = Ok (deep, [(0, 1)]) /\
  page_fonts (objs deep) 5 [mkProp (B"F1") (B"20 0 R")].
Proof.
  split; [apply (treeb_tree 5); vm_compute; reflexivity|]. split; [vm_compute; reflexivity|]. apply pf_of_is. vm_compute. reflexivity.
Qed.
Lemma deep_collides : exists ord p t fonts p' idx L fps h i, fair ord /\ page_tree p t /\ In L (leaves t) /\
  injectFonts ord p fonts = Ok (p', idx) /\ page_fonts (objs p) L fps /\ In (h, i) idx /\ has_key fps (B"F" ++ itoa i).
Proof.
  destruct deep_case as (Pt & R & Pf). exists ido, deep, deep_tree, [(0, 40)], deep, [(0, 1)], 5, [mkProp (B"F1") (B"20 0 R")], 0, 1.
  split; [exact ido_fair|]. split; [exact Pt|]. split; [left; reflexivity|]. split; [exact R|]. split; [exact Pf|]. split; [left; reflexivity|].
  exists (B"20 0 R"). left. reflexivity.
Qed.
Lemma deep_unreachable : exists ord p t p' L fps, fair ord /\ page_tree p t /\ In L (leaves t) /\
  injectFonts ord p [(0, 40)] = Ok (p', [(0, 1)]) /\ page_fonts (objs p) L fps /\
  forall fps' k, page_fonts (objs p') L fps' -> ~ font_named fps' k 40.
Proof.
  destruct deep_case as (Pt & R & Pf). exists ido, deep, deep_tree, deep, 5, [mkProp (B"F1") (B"20 0 R")].
  split; [exact ido_fair|]. split; [exact Pt|]. split; [left; reflexivity|]. split; [exact R|]. split; [exact Pf|].
  intros fps' k Q. assert (E : fps' = [mkProp (B"F1") (B"20 0 R")]) by (eapply pf_of_only; [|exact Q]; vm_compute; reflexivity).
  subst fps'. intros (v & V & I'). apply value_iff in V. cbn [getPropByKey pkey] in V. destruct (beqb (B"F1") k); [|discriminate].
  inversion V; subst. vm_compute in I'. discriminate.
Qed.

(** ** Resources of an inner node *)
Definition inherited : pdf := mkPdf 1 [
  mkObj 1 (B"<</Type /Catalog /Pages 2 0 R>>"); mkObj 2 (B"<</Type /Pages /Kids [3 0 R] /Count 1 /Resources <</Font <</F1 20 0 R>> >> >>");
  mkObj 3 (B"<</Type /Page /Parent 2 0 R>>"); mkObj 20 (B"<</Type /Font>>")].
Lemma inherited_untouched : exists ord p t L fps, fair ord /\ page_tree p t /\ In L (leaves t) /\ page_fonts (objs p) (tid t) fps /\
  injectFonts ord p [(0, 40)] = Ok (p, [(0, 1)]) /\ has_key fps (B"F" ++ itoa 1).
Proof.
  exists ido, inherited, (Node 2 [Leaf 3]), 3, [mkProp (B"F1") (B"20 0 R")]. split; [exact ido_fair|].
  split; [apply (treeb_tree 3); vm_compute; reflexivity|]. split; [left; reflexivity|]. split; [apply pf_of_is; vm_compute; reflexivity|].
  split; [vm_compute; reflexivity|]. exists (B"20 0 R"). left. reflexivity.
Qed.

(** ** Font names that are not letters and a number *)
Definition one_page (fonts : bytes) : pdf := mkPdf 1 (head_objs (B"3 0 R") ++ [
  mkObj 3 (B"<</Type /Page /Parent 2 0 R /Resources <</Font <<" ++ fonts ++ B">> >> >>"); mkObj 20 (B"<</Type /Font>>"); mkObj 21 (B"<</Type /Font>>")]).
Definition under : pdf := one_page (B"/C2_0 20 0 R").
Definition clash : pdf := one_page (B"/C2_0 20 0 R /C20 21 0 R").
Definition helv : pdf := one_page (B"/Helv 20 0 R").
Lemma one_tidy : tidy (B"Font") under 2 [Leaf 3] (place_of (B"Font") (objs under)) /\ tidy (B"Font") clash 2 [Leaf 3] (place_of (B"Font") (objs clash)) /\
  tidy (B"Font") helv 2 [Leaf 3] (place_of (B"Font") (objs helv)).
Proof. split; [|split]; (apply tidyb_tidy; vm_compute; reflexivity). Qed.

Lemma under_renamed : exists ord p info p' L fps fps', fair ord /\ tidy (B"Font") p 2 [Leaf L] info /\ writable_page (objs p) [L] info L /\
  injectFonts ord p [] = Ok (p', []) /\ page_fonts (objs p) L fps /\ page_fonts (objs p') L fps' /\
  font_named fps (B"C2_0") 20 /\ ~ has_key fps' (B"C2_0").
Proof.
  assert (R : exists p', injectFonts ido under [] = Ok (p', []) /\ pf_of (B"Font") (objs p') 3 = Some [mkProp (B"C20") (B"20 0 R")])
    by (eexists; split; [vm_compute; reflexivity|vm_compute; reflexivity]).
  destruct R as (p' & R & F). exists ido, under, (place_of (B"Font") (objs under)), p', 3, [mkProp (B"C2_0") (B"20 0 R")], [mkProp (B"C20") (B"20 0 R")].
  split; [exact ido_fair|]. split; [apply one_tidy|]. split; [apply writableb_is; vm_compute; reflexivity|]. split; [exact R|].
  split; [apply pf_of_is; vm_compute; reflexivity|]. split; [apply pf_of_is; exact F|].
  split; [exists (B"20 0 R"); split; [apply value_iff; reflexivity|reflexivity]|]. apply key_none. reflexivity.
Qed.
Lemma clash_swapped : exists ord p info p' L fps fps', fair ord /\ tidy (B"Font") p 2 [Leaf L] info /\ writable_page (objs p) [L] info L /\
  injectFonts ord p [] = Ok (p', []) /\ page_fonts (objs p) L fps /\ page_fonts (objs p') L fps' /\
  font_named fps (B"C20") 21 /\ font_named fps' (B"C20") 20 /\ NoDup (map pkey fps) /\ ~ NoDup (map pkey fps').
Proof.
  assert (R : exists p', injectFonts ido clash [] = Ok (p', []) /\ pf_of (B"Font") (objs p') 3 = Some [mkProp (B"C20") (B"20 0 R"); mkProp (B"C20") (B"21 0 R")])
    by (eexists; split; [vm_compute; reflexivity|vm_compute; reflexivity]).
  destruct R as (p' & R & F). exists ido, clash, (place_of (B"Font") (objs clash)), p', 3, [mkProp (B"C2_0") (B"20 0 R"); mkProp (B"C20") (B"21 0 R")],
    [mkProp (B"C20") (B"20 0 R"); mkProp (B"C20") (B"21 0 R")].
  split; [exact ido_fair|]. split; [apply one_tidy|]. split; [apply writableb_is; vm_compute; reflexivity|]. split; [exact R|].
  split; [apply pf_of_is; vm_compute; reflexivity|]. split; [apply pf_of_is; exact F|].
  split; [exists (B"21 0 R"); split; [apply value_iff; reflexivity|reflexivity]|].
  split; [exists (B"20 0 R"); split; [apply value_iff; reflexivity|reflexivity]|]. cbn [map pkey]. split.
  - constructor; [intros [E|[]]; vm_compute in E; discriminate|constructor; [intros []|constructor]].
  - intros N. inversion N as [|x l H1 H2]; subst. apply H1. left. reflexivity.
Qed.
Lemma helv_fails : exists p info L fps, tidy (B"Font") p 2 [Leaf L] info /\ writable_page (objs p) [L] info L /\ page_fonts (objs p) L fps /\
  font_named fps (B"Helv") 20 /\ injectFonts ido p [] = Err ENoFontIndex.
Proof.
  exists helv, (place_of (B"Font") (objs helv)), 3, [mkProp (B"Helv") (B"20 0 R")].
  split; [apply one_tidy|]. split; [apply writableb_is; vm_compute; reflexivity|].
  split; [apply pf_of_is; vm_compute; reflexivity|]. split; [exists (B"20 0 R"); split; [apply value_iff; reflexivity|reflexivity]|]. vm_compute. reflexivity.
Qed.

(** ** Two pages with one resource object *)
Definition shared : pdf := mkPdf 1 (head_objs (B"3 0 R 4 0 R") ++ [
  mkObj 3 (B"<</Type /Page /Parent 2 0 R /Resources 10 0 R>>"); mkObj 4 (B"<</Type /Page /Parent 2 0 R /Resources 10 0 R>>");
  mkObj 10 (B"<</ProcSet [/PDF] /Font <</F1 20 0 R>> >>"); mkObj 20 (B"<</Type /Font>>")]).
Lemma shared_doubled : exists ord p info p' idx id ps ps', fair ord /\ tidy (B"Font") p 2 [Leaf 3; Leaf 4] info /\ injectFonts ord p [(0, 40)] = Ok (p', idx) /\
  dict (objs p) id ps /\ NoDup (map pkey ps) /\ dict (objs p') id ps' /\ ~ NoDup (map pkey ps').
Proof.
  assert (R : exists p', injectFonts ido shared [(0, 40)] = Ok (p', [(0, 2)]) /\ map pkey (props_of (objs p') 10) = [B"ProcSet"; B"Font"; B"ProcSet"; B"Font"] /\
     propsb (objs p') 10 <> None) by (eexists; split; [|split]; [vm_compute; reflexivity|vm_compute; reflexivity|vm_compute; discriminate]).
  destruct R as (p' & R & K & Ne).
  exists ido, shared, (place_of (B"Font") (objs shared)), p', [(0, 2)], 10, (props_of (objs shared) 10), (props_of (objs p') 10).
  split; [exact ido_fair|]. split; [apply tidyb_tidy; vm_compute; reflexivity|]. split; [exact R|].
  split; [apply propsb_dict; vm_compute; reflexivity|]. split.
  - replace (map pkey (props_of (objs shared) 10)) with [B"ProcSet"; B"Font"] by (vm_compute; reflexivity).
    constructor; [intros [E|[]]; vm_compute in E; discriminate|constructor; [intros []|constructor]].
  - split; [apply propsb_dict; unfold props_of; destruct (propsb (objs p') 10); [reflexivity|congruence]|]. rewrite K. intros N.
    inversion N as [|x l H1 H2]; subst. apply H1. right. left. reflexivity.
Qed.

(** Both pages of that document can use the new font. *)
Lemma shared_case : exists p' info fps, injectFonts ido shared [(0, 40)] = Ok (p', [(0, 2)]) /\ tidy (B"Font") shared 2 [Leaf 3; Leaf 4] info /\
  writable_page (objs shared) [3; 4] info 4 /\ page_fonts (objs p') 4 fps /\ font_named fps (B"F1") 20 /\ font_named fps (B"F2") 40.
Proof.
  assert (R : exists p' ps v rps w fps, injectFonts ido shared [(0, 40)] = Ok (p', [(0, 2)]) /\ propsb (objs p') 4 = Some ps /\ getPropByKey (B"Resources") ps = Some v /\
     readObjID (pval v) = Ok 10 /\ propsb (objs p') 10 = Some rps /\ getPropByKey (B"Font") rps = Some w /\ propertyType (pval w) = PObject /\ readProperties (pval w) = Ok fps /\
     fps = [mkProp (B"F1") (B"20 0 R"); mkProp (B"F2") (B"40 0 R")])
    by (do 6 eexists; repeat (split; [vm_compute; reflexivity|]); vm_compute; reflexivity).
  destruct R as (p' & ps & v & rps & w & fps & R & R1 & R2 & R3 & R4 & R5 & R6 & R7 & ->).
  exists p', (place_of (B"Font") (objs shared)), [mkProp (B"F1") (B"20 0 R"); mkProp (B"F2") (B"40 0 R")].
  split; [exact R|]. split; [apply tidyb_tidy; vm_compute; reflexivity|]. split; [apply writableb_is; vm_compute; reflexivity|]. split.
  - exists ps, (pval v), rps, (pval w). split; [apply propsb_dict; exact R1|]. split; [eapply get_value; eauto|].
    split; [right; exists 10; split; [exact R3|apply propsb_dict; exact R4]|]. split; [eapply get_value; eauto|]. left. auto.
  - split; [exists (B"20 0 R")|exists (B"40 0 R")]; (split; [apply value_iff; reflexivity|reflexivity]).
Qed.
