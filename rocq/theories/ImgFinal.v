(** Images after saving: the results of ImgPages.v for a whole run, and documents. *)
From Coq Require Import String List ZArith Lia Bool Permutation.
From Verif Require Import Base BaseProofs Output Props PropsSpec PropsNorm PdfData PagesSpec PagesProofs PagesEdit Crawl Inject
  InjectSpec InjectVisits InjectPages InjectTidy InjectFonts InjectFinal InjectCheck InjectCases ImgNames ImgSpec ImgLists ImgCrawl ImgPages ImgEmbed ImgCases.
Open Scope Z_scope.
Open Scope list_scope.

(** ** Whole runs *)
Section Whole.
  Variables (ord : morder) (p p' : pdf) (imgs : list Z) (names : list (bytes * Z)) (rid : Z) (ts : list tree) (info : Z -> res_place).
  Hypothesis Fr : fair ord.
  Hypothesis T : tidy XO p rid ts info.
  Hypothesis Top : bare_top p rid.
  Hypothesis Rn : injectImgs ord p imgs = Ok (p', names).
  Hypothesis Im : Forall is_int imgs.
  Notation ids := (flat_map leaves ts).
  Notation all_named := (images_named imgs names).

  Lemma whole_inside : images_inside ids info ->
    (forall L rps xps, In L ids -> info L = ResIn rps (FontIn xps) -> numbered_images xps /\ last_greatest xps) ->
    forall L xps, In L ids -> page_images (objs p) L xps -> writable_page (objs p) ids info L ->
    exists xps', page_images (objs p') L xps' /\ (forall k n, font_named xps k n -> font_named xps' k n) /\ all_named xps'.
  Proof.
    intros In1 Num L xps HL Px W. destruct (injectImgs_ran _ _ _ _ _ Rn) as (rsRes & cw1 & cw & rx & embed & vals & old & ch & idx & must & R).
    exact (inside_after _ _ _ _ _ _ _ _ Fr T Top _ _ _ _ _ _ _ _ _ _ R In1 Num Im L xps HL Px W).
  Qed.
  Lemma whole_shared : forall r rps xps, images_shared ids info r rps xps -> numbered_images xps -> last_greatest xps -> writable_object (objs p) r rps ->
    exists xps', (forall k n, font_named xps k n -> font_named xps' k n) /\ all_named xps' /\
      forall L, In L ids -> info L <> NoRes -> page_images (objs p') L xps'.
  Proof.
    intros r rps xps Sh N1 N2 W. destruct (injectImgs_ran _ _ _ _ _ Rn) as (rsRes & cw1 & cw & rx & embed & vals & old & ch & idx & must & R).
    exact (shared_after _ _ _ _ _ _ _ _ Fr T Top _ _ _ _ _ _ _ _ _ _ R r rps xps Sh (conj N1 N2) Im W).
  Qed.
  Lemma whole_none : images_none ids info -> forall L r rps ps, In L ids -> info L = ResAt r rps NoFont -> extendable (objs p) L ps -> extendable (objs p) r rps ->
    exists xps', page_images (objs p') L xps' /\ all_named xps'.
  Proof.
    intros No L r rps ps HL E X1 X2. destruct (injectImgs_ran _ _ _ _ _ Rn) as (rsRes & cw1 & cw & rx & embed & vals & old & ch & idx & must & R).
    exact (none_after _ _ _ _ _ _ _ _ Fr T Top _ _ _ _ _ _ _ _ _ _ R No Im L r rps ps HL E X1 X2).
  Qed.
  Lemma whole_nowhere : images_nowhere ids info -> forall L rps, In (Leaf L) ts -> info L = ResIn rps NoFont -> inline_extendable (objs p) L rps ->
    exists xps', page_images (objs p') L xps' /\ all_named xps'.
  Proof.
    intros No L rps HL E (ps & v & W & Ov & Rv & Wb). destruct (injectImgs_ran _ _ _ _ _ Rn) as (rsRes & cw1 & cw & rx & embed & vals & old & ch & idx & must & R).
    exact (nowhere_after _ _ _ _ _ _ _ _ Fr T Top _ _ _ _ _ _ _ _ _ _ R No Im L rps ps v HL E W Ov Rv Wb).
  Qed.

  Variables (K2 : bytes) (info2 : Z -> res_place).
  Hypothesis T2 : tidy K2 p rid ts info2.
  Hypothesis Ne2 : K2 <> XO.
  Lemma whole_inside_kept : images_inside ids info ->
    (forall L rps xps, In L ids -> info L = ResIn rps (FontIn xps) -> numbered_images xps /\ last_greatest xps) ->
    (exists L rps xps, In L ids /\ info L = ResIn rps (FontIn xps)) ->
    forall L fps, In L ids -> (forall rps xps, info L = ResIn rps (FontIn xps) -> writable_page (objs p) ids info L) ->
    page_dict K2 (objs p) L fps -> page_dict K2 (objs p') L fps.
  Proof.
    intros In1 Num Ex L fps HL W P. destruct (injectImgs_ran _ _ _ _ _ Rn) as (rsRes & cw1 & cw & rx & embed & vals & old & ch & idx & must & R).
    exact (inside_kept _ _ _ _ _ _ _ _ Fr T Top _ _ _ _ _ _ _ _ _ _ R K2 info2 T2 Ne2 In1 Num Im Ex L fps HL W P).
  Qed.
  Lemma whole_shared_kept : forall r rps xps, images_shared ids info r rps xps -> numbered_images xps -> last_greatest xps -> writable_object (objs p) r rps ->
    forall L fps, In L ids -> page_dict K2 (objs p) L fps -> page_dict K2 (objs p') L fps.
  Proof.
    intros r rps xps Sh N1 N2 W L fps HL P. destruct (injectImgs_ran _ _ _ _ _ Rn) as (rsRes & cw1 & cw & rx & embed & vals & old & ch & idx & must & R).
    exact (shared_kept _ _ _ _ _ _ _ _ Fr T Top _ _ _ _ _ _ _ _ _ _ R K2 info2 T2 Ne2 r rps xps Sh (conj N1 N2) Im W L fps HL P).
  Qed.
  Lemma whole_none_kept : images_none ids info -> forall L r rps ps fps, In L ids -> info L = ResAt r rps NoFont -> extendable (objs p) L ps -> extendable (objs p) r rps ->
    page_dict K2 (objs p) L fps -> page_dict K2 (objs p') L fps.
  Proof.
    intros No L r rps ps fps HL E X1 X2 P. destruct (injectImgs_ran _ _ _ _ _ Rn) as (rsRes & cw1 & cw & rx & embed & vals & old & ch & idx & must & R).
    eapply (none_kept _ _ _ _ _ _ _ _ Fr T Top _ _ _ _ _ _ _ _ _ _ R K2 info2 T2 No); eauto.
  Qed.
  Lemma whole_nowhere_kept : images_nowhere ids info -> forall L fps, In L ids ->
    (forall rps, In (Leaf L) ts -> info L = ResIn rps NoFont -> inline_extendable (objs p) L rps) -> page_dict K2 (objs p) L fps -> page_dict K2 (objs p') L fps.
  Proof.
    intros No L fps HL E P. destruct (injectImgs_ran _ _ _ _ _ Rn) as (rsRes & cw1 & cw & rx & embed & vals & old & ch & idx & must & R).
    apply (nowhere_kept _ _ _ _ _ _ _ _ Fr T Top _ _ _ _ _ _ _ _ _ _ R No K2 info2 T2 L fps HL); [|exact P].
    intros rps H1 H2. destruct (E rps H1 H2) as (ps & v & W & Ov & _ & Wb). exists ps, v. auto.
  Qed.
End Whole.

(** ** Deciding the conditions on a given document *)
Definition bareb (p : pdf) (rid : Z) : bool := absentb (props_of (objs p) (root p)) (B"Resources") && absentb (props_of (objs p) rid) (B"Resources").
Lemma bareb_bare : forall p rid, bareb p rid = true -> bare_top p rid.
Proof.
  intros p rid H id ps Hid (o & V & R). unfold bareb in H. apply andb_true_iff in H. destruct H as (H1 & H2).
  assert (E : props_of (objs p) id = ps) by (unfold props_of, propsb; rewrite (version_get _ _ _ V); unfold entries in R; rewrite R; reflexivity).
  destruct Hid as [-> | ->]; rewrite E in *; apply absent_key; auto.
Qed.
Definition writobb (os : list obj) (id : Z) : bool := match getObj id os with Ok o => rewb (odata o) && forallb seenb (props_of os id) | _ => false end.
Lemma writobb_is : forall os id, propsb os id <> None -> writobb os id = true -> writable_object os id (props_of os id).
Proof.
  intros os id N H. unfold writobb in H. destruct (getObj id os) as [o| | |] eqn:G; try discriminate. apply andb_true_iff in H. destruct H as (H1 & H2).
  split; [exists o; split; [apply get_version; auto|apply rewb_rew; auto]|]. split; [|apply seenb_all; auto].
  apply propsb_dict. unfold props_of. destruct (propsb os id); [reflexivity|congruence].
Qed.
Lemma extendb_is : forall os id, propsb os id <> None -> writobb os id = true -> forallb (fun q => balanced 0 0 (pval q)) (props_of os id) = true ->
  extendable os id (props_of os id).
Proof. intros os id N H F. split; [apply writobb_is; auto|]. rewrite forallb_forall in F. apply Forall_forall. auto. Qed.
Lemma image_check : forall c n, 0 <= n < 2 ^ 63 -> forallb (fun x => (97 <=? x) && (x <=? 122) || (65 <=? x) && (x <=? 90)) c = true -> image_number (c ++ itoa n) n.
Proof. intros c n H F. exists c. split; [reflexivity|]. split; [exact H|]. rewrite forallb_forall in F. apply Forall_forall. intros x Hx. specialize (F x Hx). lia. Qed.

(** ** Documents *)
Definition font_images : bytes := B"<</XObject <</Im1 20 0 R>> /Font <</F1 30 0 R>> >>".
(** Images in the pages. *)
Definition ins : pdf := two_res font_images (B"<</XObject <</X2 21 0 R /X7 20 0 R>> >>").
(** One resource object for both pages. *)
Definition shr : pdf := mkPdf 1 (head_objs (B"3 0 R 4 0 R") ++ [
  mkObj 3 (B"<</Type /Page /Parent 2 0 R /Resources 10 0 R>>"); mkObj 4 (B"<</Type /Page /Parent 2 0 R /Resources 10 0 R>>");
  mkObj 10 font_images; mkObj 20 (B"<</Type /XObject>>"); mkObj 30 (B"<</Type /Font>>")]).
(** Resource objects without images. *)
Definition nim : pdf := mkPdf 1 (head_objs (B"3 0 R 4 0 R") ++ [
  mkObj 3 (B"<</Type /Page /Parent 2 0 R /Resources 10 0 R>>"); mkObj 4 (B"<</Type /Page /Parent 2 0 R /Resources 11 0 R>>");
  mkObj 10 (B"<</Font <</F1 30 0 R>> >>"); mkObj 11 (B"<</ProcSet [/PDF]>>"); mkObj 30 (B"<</Type /Font>>")]).
Definition two_leaves : list tree := [Leaf 3; Leaf 4].
Notation pl := (place_of XO).

Ltac numbered := let q := fresh in let H := fresh in intros q H; cbn [In] in H;
  repeat (destruct H as [<-|H]; [split; [apply regb_reg; vm_compute; reflexivity|split; [eexists|eexists; vm_compute; reflexivity]]|]); try destruct H.
Ltac run_of H d o is nm := assert (H : exists p', injectImgs o d is = Ok (p', nm)) by (eexists; vm_compute; reflexivity).

Lemma im1_ok : numbered_images [mkProp (B"Im1") (B"20 0 R")] /\ last_greatest [mkProp (B"Im1") (B"20 0 R")].
Proof.
  assert (N1 : image_number (B"Im1") 1) by (apply (image_check (B"Im") 1); [lia|reflexivity]).
  split; [numbered; exact N1|]. intros a q q' m n E H Hm Hn. destruct a as [|y a]; [|destruct a; discriminate]. inversion E; subst q.
  destruct H as [<-|[]]. pose proof (number_fun _ _ _ Hm Hn). lia.
Qed.
Lemma x7_ok : numbered_images [mkProp (B"X2") (B"21 0 R"); mkProp (B"X7") (B"20 0 R")] /\ last_greatest [mkProp (B"X2") (B"21 0 R"); mkProp (B"X7") (B"20 0 R")].
Proof.
  assert (N1 : image_number (B"X2") 2) by (apply (image_check (B"X") 2); [lia|reflexivity]).
  assert (N2 : image_number (B"X7") 7) by (apply (image_check (B"X") 7); [lia|reflexivity]).
  split; [numbered; [exact N1|exact N2]|]. intros a q q' m n E H Hm Hn.
  destruct a as [|y a]; [discriminate|]. destruct a as [|y' a]; [|destruct a; discriminate]. inversion E; subst.
  pose proof (number_fun _ _ _ Hn N2) as ->. destruct H as [<-|[<-|[]]]; [pose proof (number_fun _ _ _ Hm N1)|pose proof (number_fun _ _ _ Hm N2)]; lia.
Qed.

Lemma ins_tidy : tidy XO ins 2 two_leaves (pl (objs ins)).
Proof. apply tidyb_tidy. vm_compute. reflexivity. Qed.
Lemma ins_bare : bare_top ins 2.
Proof. apply bareb_bare. vm_compute. reflexivity. Qed.
Lemma ins_inside : images_inside [3; 4] (pl (objs ins)).
Proof. intros L [<-|[<-|[]]]; vm_compute; exact Logic.I. Qed.
Lemma ins_numbered : forall L rps xps, In L [3; 4] -> pl (objs ins) L = ResIn rps (FontIn xps) -> numbered_images xps /\ last_greatest xps.
Proof. intros L rps xps [<-|[<-|[]]] E; vm_compute in E; inversion E; subst; [exact im1_ok|exact x7_ok]. Qed.
Lemma ins_writable : forall L, In L [3; 4] -> writable_page (objs ins) [3; 4] (pl (objs ins)) L.
Proof. intros L [<-|[<-|[]]]; (apply writableb_is; vm_compute; reflexivity). Qed.

(** The images of both pages come to be named on both, and X8 is new. *)
Lemma ins_case : exists p' xps, injectImgs ido ins [40] = Ok (p', [(B"X", 8)]) /\ page_images (objs p') 3 xps /\
  font_named xps (B"Im1") 20 /\ font_named xps (B"X8") 40 /\ page_fonts (objs p') 3 [mkProp (B"F1") (B"30 0 R")].
Proof.
  run_of R ins ido [40] [(B"X", 8)]. destruct R as (p' & R). exists p'.
  assert (I40 : Forall is_int [40]) by (constructor; [unfold is_int; lia|constructor]).
  destruct (whole_inside ido ins p' [40] _ 2 two_leaves _ ido_fair ins_tidy ins_bare R I40 ins_inside ins_numbered 3 [mkProp (B"Im1") (B"20 0 R")]) as (xps & P & Kp & Nm).
  - left; reflexivity.
  - images.
  - apply ins_writable; left; reflexivity.
  - exists xps. split; [exact R|]. split; [exact P|]. split; [apply Kp; names_it "20 0 R"%string|]. inversion Nm; subst. split; [assumption|].
    refine (whole_inside_kept ido ins p' [40] _ 2 two_leaves _ ido_fair ins_tidy ins_bare R I40 (B"Font") (place_of (B"Font") (objs ins)) _ _ ins_inside ins_numbered _ 3 _ _ _ _).
    + apply tidyb_tidy. vm_compute. reflexivity.
    + vm_compute. discriminate.
    + exists 3. eexists. eexists. split; [left; reflexivity|vm_compute; reflexivity].
    + left; reflexivity.
    + intros rps xps' _. apply ins_writable; left; reflexivity.
    + apply pf_of_is. vm_compute. reflexivity.
Qed.

Lemma shr_case : exists p' xps, injectImgs ido shr [40; 41] = Ok (p', [(B"Im", 2); (B"Im", 3)]) /\ page_images (objs p') 3 xps /\ page_images (objs p') 4 xps /\
  font_named xps (B"Im1") 20 /\ font_named xps (B"Im2") 40 /\ font_named xps (B"Im3") 41 /\ page_fonts (objs p') 4 [mkProp (B"F1") (B"30 0 R")].
Proof.
  run_of R shr ido [40; 41] [(B"Im", 2); (B"Im", 3)]. destruct R as (p' & R). exists p'.
  assert (I40 : Forall is_int [40; 41]) by (constructor; [unfold is_int; lia|constructor; [unfold is_int; lia|constructor]]).
  assert (T : tidy XO shr 2 two_leaves (pl (objs shr))) by (apply tidyb_tidy; vm_compute; reflexivity).
  assert (Bt : bare_top shr 2) by (apply bareb_bare; vm_compute; reflexivity).
  assert (Sh : images_shared [3; 4] (pl (objs shr)) 10 (props_of (objs shr) 10) [mkProp (B"Im1") (B"20 0 R")]) by (intros L [<-|[<-|[]]]; right; vm_compute; reflexivity).
  assert (W : writable_object (objs shr) 10 (props_of (objs shr) 10)) by (apply writobb_is; [vm_compute; discriminate|vm_compute; reflexivity]).
  destruct im1_ok as (N1 & N2).
  destruct (whole_shared ido shr p' _ _ 2 two_leaves _ ido_fair T Bt R I40 10 _ _ Sh N1 N2 W) as (xps & Kp & Nm & P).
  exists xps. split; [exact R|]. split; [apply P; [left; reflexivity|vm_compute; discriminate]|]. split; [apply P; [right; left; reflexivity|vm_compute; discriminate]|].
  split; [apply Kp; names_it "20 0 R"%string|]. inversion Nm as [|? ? ? ? A1 Nm']; subst. inversion Nm'; subst. split; [assumption|]. split; [assumption|].
  refine (whole_shared_kept ido shr p' _ _ 2 two_leaves _ ido_fair T Bt R I40 (B"Font") (place_of (B"Font") (objs shr)) _ _ 10 _ _ Sh N1 N2 W 4 _ _ _).
  - apply tidyb_tidy. vm_compute. reflexivity.
  - vm_compute. discriminate.
  - right; left; reflexivity.
  - apply pf_of_is. vm_compute. reflexivity.
Qed.

Lemma nim_case : exists p' xps, injectImgs ido nim [40] = Ok (p', [(B"I", 1)]) /\ page_images (objs p') 3 xps /\
  font_named xps (B"I1") 40 /\ page_fonts (objs p') 3 [mkProp (B"F1") (B"30 0 R")].
Proof.
  run_of R nim ido [40] [(B"I", 1)]. destruct R as (p' & R). exists p'.
  assert (I40 : Forall is_int [40]) by (constructor; [unfold is_int; lia|constructor]).
  assert (T : tidy XO nim 2 two_leaves (pl (objs nim))) by (apply tidyb_tidy; vm_compute; reflexivity).
  assert (Bt : bare_top nim 2) by (apply bareb_bare; vm_compute; reflexivity).
  assert (No : images_none [3; 4] (pl (objs nim))) by (intros L [<-|[<-|[]]]; vm_compute; exact Logic.I).
  assert (E3 : extendable (objs nim) 3 (props_of (objs nim) 3)) by (apply extendb_is; [vm_compute; discriminate|vm_compute; reflexivity|vm_compute; reflexivity]).
  assert (E10 : extendable (objs nim) 10 (props_of (objs nim) 10)) by (apply extendb_is; [vm_compute; discriminate|vm_compute; reflexivity|vm_compute; reflexivity]).
  assert (Pl : pl (objs nim) 3 = ResAt 10 (props_of (objs nim) 10) NoFont) by (vm_compute; reflexivity).
  destruct (whole_none ido nim p' [40] _ 2 two_leaves _ ido_fair T Bt R I40 No 3 10 _ _ (or_introl eq_refl) Pl E3 E10) as (xps & P & Nm).
  exists xps. split; [exact R|]. split; [exact P|]. inversion Nm; subst. split; [assumption|].
  refine (whole_none_kept ido nim p' [40] _ 2 two_leaves _ ido_fair T Bt R (B"Font") (place_of (B"Font") (objs nim)) _ No 3 10 _ _ _ (or_introl eq_refl) Pl E3 E10 _).
  - apply tidyb_tidy. vm_compute. reflexivity.
  - apply pf_of_is. vm_compute. reflexivity.
Qed.

(** Resources in the pages, without images. *)
Definition nwh : pdf := two_res (B"<</Font <</F1 30 0 R>> /ProcSet [/PDF]>>") (B"<</ProcSet [/PDF]>>").
Lemma nwh_case : exists p' xps, injectImgs ido nwh [40] = Ok (p', [(B"I", 1)]) /\ page_images (objs p') 3 xps /\
  font_named xps (B"I1") 40 /\ page_fonts (objs p') 3 [mkProp (B"F1") (B"30 0 R")].
Proof.
  run_of R nwh ido [40] [(B"I", 1)]. destruct R as (p' & R). exists p'.
  assert (I40 : Forall is_int [40]) by (constructor; [unfold is_int; lia|constructor]).
  assert (T : tidy XO nwh 2 two_leaves (pl (objs nwh))) by (apply tidyb_tidy; vm_compute; reflexivity).
  assert (Bt : bare_top nwh 2) by (apply bareb_bare; vm_compute; reflexivity).
  assert (No : images_nowhere [3; 4] (pl (objs nwh))) by (intros L [<-|[<-|[]]]; vm_compute; exact Logic.I).
  set (rps := [mkProp (B"Font") (B"<</F1 30 0 R>>"); mkProp (B"ProcSet") (B"[/PDF]")]).
  assert (E3 : inline_extendable (objs nwh) 3 rps).
  { exists (props_of (objs nwh) 3), (B"<</Font<</F1 30 0 R>>/ProcSet[/PDF]>>"). split; [apply writobb_is; [vm_compute; discriminate|vm_compute; reflexivity]|].
    split; [|split; [vm_compute; reflexivity|]].
    - change (B"<</Font<</F1 30 0 R>>/ProcSet[/PDF]>>") with (pval (mkProp (B"Resources") (B"<</Font<</F1 30 0 R>>/ProcSet[/PDF]>>"))).
      apply onceb_once; vm_compute; reflexivity.
    - exists (B"/Font<</F1 30 0 R>>/ProcSet[/PDF]"). split; [reflexivity|]. split; [vm_compute; reflexivity|]. split; [vm_compute; reflexivity|]. split; [vm_compute; reflexivity|].
      apply Forall_forall. intros q [<-|[<-|[]]]; vm_compute; reflexivity. }
  assert (Pl : pl (objs nwh) 3 = ResIn rps NoFont) by (vm_compute; reflexivity).
  destruct (whole_nowhere ido nwh p' [40] _ 2 two_leaves _ ido_fair T Bt R I40 No 3 rps (or_introl eq_refl) Pl E3) as (xps & P & Nm).
  exists xps. split; [exact R|]. split; [exact P|]. inversion Nm; subst. split; [assumption|].
  refine (whole_nowhere_kept ido nwh p' [40] _ 2 two_leaves _ ido_fair T Bt R (B"Font") (place_of (B"Font") (objs nwh)) _ No 3 _ (or_introl eq_refl) _ _).
  - apply tidyb_tidy. vm_compute. reflexivity.
  - intros r0 _ E. rewrite Pl in E. inversion E; subst r0. exact E3.
  - apply pf_of_is. vm_compute. reflexivity.
Qed.

(** ** Documents in which pages get no images, or lose what they have *)
Definition below : pdf := mkPdf 1 (head_objs (B"5 0 R") ++ [
  mkObj 5 (B"<</Type /Pages /Parent 2 0 R /Kids [3 0 R] /Count 1>>"); mkObj 3 (B"<</Type /Page /Parent 5 0 R /Resources <</ProcSet [/PDF]>> >>")]).
Lemma below_none : exists ord p t L, fair ord /\ page_tree p t /\ leaves t = [L] /\ injectImgs ord p [40] = Ok (p, [(B"I", 1)]) /\
  forall xps, ~ page_images (objs p) L xps.
Proof.
  exists ido, below, (Node 2 [Node 5 [Leaf 3]]), 3. split; [exact ido_fair|]. split; [apply (treeb_tree 4); vm_compute; reflexivity|]. split; [reflexivity|].
  split; [vm_compute; reflexivity|]. intros xps H.
  assert (Pb : pageb XO (objs below) 3 = true) by (vm_compute; reflexivity). apply (page_place _ _ _ _ _ _ (pageb_is _ _ _ Pb)) in H. vm_compute in H. discriminate.
Qed.

Definition lossy : pdf := mkPdf 1 (head_objs (B"3 0 R 4 0 R") ++ [
  mkObj 3 (B"<</Type /Page /Parent 2 0 R /Resources <</ProcSet [/PDF]>> >>"); mkObj 4 (B"<</Type /Page /Parent 2 0 R /Resources 12 0 R>>");
  mkObj 12 (B"<</Font <</F1 20 0 R>> >>"); mkObj 20 (B"<</Type /Font>>")]).
Lemma lossy_fonts : exists ord p t p' L fps, fair ord /\ page_tree p t /\ In L (leaves t) /\ injectImgs ord p [] = Ok (p', []) /\
  page_fonts (objs p) L fps /\ font_named fps (B"F1") 20 /\ forall fps', ~ page_fonts (objs p') L fps'.
Proof.
  assert (R : exists p', injectImgs ido lossy [] = Ok (p', []) /\ pageb (B"Font") (objs p') 4 = true /\ place_fonts (place_of (B"Font") (objs p') 4) = None)
    by (eexists; split; [vm_compute; reflexivity|split; [vm_compute; reflexivity|vm_compute; reflexivity]]).
  destruct R as (p' & R & Pb & Pn). exists ido, lossy, two_tree, p', 4, [mkProp (B"F1") (B"20 0 R")].
  split; [exact ido_fair|]. split; [apply (treeb_tree 3); vm_compute; reflexivity|]. split; [right; left; reflexivity|]. split; [exact R|].
  split; [apply pf_of_is; vm_compute; reflexivity|]. split; [names_it "20 0 R"%string|].
  intros fps H. apply (page_place _ _ _ _ _ _ (pageb_is _ _ _ Pb)) in H. congruence.
Qed.
