(** The objects of pictures in the file. *)
From Coq Require Import String List ZArith Lia Bool.
From Coq.Floats Require Import SpecFloat.
From Verif Require Import Base BaseProofs PdfData Output OutputSpec Md5Rc4 Crypto CryptoSpec CryptoProofs PdfSyntax PdfSyntaxProofs PdfMore Float64 Ttf Subset CharMap Png PngSpec PngObject GoPdf GoPdfSpec GoPdfDrawSpec GoPdfDocSpec GoPdfSetSpec GoPdfResSpec.
From Verif Require Import GoPdfRun GoPdfDoc GoPdfFile GoPdfPages GoPdfRead GoPdfTree GoPdfState GoPdfOut GoPdfMain GoPdfKeep GoPdfView GoPdfFonts GoPdfChain GoPdfEmbed.
Open Scope Z_scope.
Open Scope list_scope.

(** ** Places *)
Lemma pictures_grow : forall t x, exists l, pictures (t ++ [x]) = pictures t ++ l.
Proof.
  intros t [[g c] e]. rewrite pictures_snoc. unfold picture_step. cbn [fst snd]. destruct c; try (exists []; rewrite app_nil_r; reflexivity). destruct e; [exists []; rewrite app_nil_r; reflexivity|].
  destruct (existsb _ _); [exists []; rewrite app_nil_r; reflexivity|]. eexists. reflexivity.
Qed.
Lemma pictures_prefix : forall b t, exists l, pictures (t ++ b) = pictures t ++ l.
Proof.
  induction b as [|x b IH]; intros t; [exists []; rewrite !app_nil_r; reflexivity|]. replace (t ++ x :: b) with ((t ++ [x]) ++ b) by (rewrite <- app_assoc; reflexivity).
  destruct (IH (t ++ [x])) as (l & ->). destruct (pictures_grow t x) as (l' & ->). exists (l' ++ l). rewrite app_assoc. reflexivity.
Qed.
Definition named (id : bytes) (p : bytes * bytes * bytes) : bool := beqb id (fst (fst p)).
Lemma place_at : forall id (ps : list (bytes * bytes * bytes)) (c : list (bytes * Z * (f64 * f64))) k, map (fun c => fst (fst c)) c = map (fun p => fst (fst p)) ps ->
  match find (named id) ps with
  | Some p => exists j, fst (place id c k) = k + Z.of_nat j /\ nth_error ps j = Some p
  | None => fst (place id c k) = k + Z.of_nat (List.length ps)
  end.
Proof.
  intros id. induction ps as [|p ps IH]; intros [|[[nm z] r] c] k E; try discriminate; cbn [find place fst]; [cbn [List.length]; lia|]. cbn [map fst] in E. injection E as E1 E2. unfold named at 1. rewrite E1.
  destruct (beqb id (fst (fst p))); [exists 0%nat; split; [cbn [fst]; lia|reflexivity]|]. specialize (IH c (k + 1) E2). destruct (find (named id) ps) as [p'|].
  - destruct IH as (j & P & N). exists (S j). split; [rewrite P; lia|exact N].
  - rewrite IH. cbn [List.length]. lia.
Qed.
Lemma find_none_existsb : forall A (f : A -> bool) l, find f l = None -> existsb f l = false.
Proof. intros A f. induction l as [|x l IH]; intros H; [reflexivity|]. cbn [find existsb] in *. destruct (f x); [discriminate|]. apply IH. exact H. Qed.
Lemma find_existsb : forall A (f : A -> bool) l x, find f l = Some x -> existsb f l = true.
Proof. intros A f l x H. apply find_some in H. destruct H. apply existsb_exists. eauto. Qed.
Lemma find_app_some : forall A (f : A -> bool) l l' x, find f l = Some x -> find f (l ++ l') = Some x.
Proof. intros A f. induction l as [|y l IH]; intros l' x H; [discriminate|]. cbn [app find] in *. destruct (f y); [exact H|]. apply IH. exact H. Qed.
Lemma find_app_none : forall A (f : A -> bool) l l', find f l = None -> find f (l ++ l') = find f l'.
Proof. intros A f. induction l as [|y l IH]; intros l' H; [reflexivity|]. cbn [app find] in *. destruct (f y); [discriminate|]. apply IH. exact H. Qed.

Lemma picture_place : forall w cfg rnd g0 a q id d bey x y r b, g_start rnd cfg gp0 = Ok g0 -> runs w g0 a q ->
  exists j p, find (named id) (pictures (a ++ (q, ImageBy id d bey x y r, None) :: b)) = Some p /\ nth_error (pictures (a ++ (q, ImageBy id d bey x y r, None) :: b)) j = Some p /\
    fst (place id (u_cache (g_cur q)) 0) = Z.of_nat j.
Proof.
  intros w cfg rnd g0 a q id d bey x y r b S R. pose proof (ld_names _ _ _ (laid_run _ _ _ _ _ _ S R)) as Nm. pose proof (place_at id _ _ 0 Nm) as P.
  replace (a ++ (q, ImageBy id d bey x y r, None) :: b) with ((a ++ [(q, ImageBy id d bey x y r, None)]) ++ b) by (rewrite <- app_assoc; reflexivity).
  destruct (pictures_prefix b (a ++ [(q, ImageBy id d bey x y r, None)])) as (l & ->). rewrite pictures_snoc. unfold picture_step. cbn [fst snd]. change (fun p => beqb id (fst (fst p))) with (named id).
  destruct (find (named id) (pictures a)) as [p|] eqn:E.
  - destruct P as (j & P1 & P2). rewrite (find_existsb _ _ _ _ E). exists j, p. split; [apply find_app_some; exact E|]. split; [apply keeps_app; exact P2|rewrite P1; lia].
  - rewrite (find_none_existsb _ _ _ E). exists (List.length (pictures a)), (id, d, bey). split; [apply find_app_some; rewrite find_app_none by exact E; cbn [find]; unfold named; cbn [fst]; rewrite (proj2 (beqb_eq id id) eq_refl); reflexivity|].
    split; [apply keeps_app; rewrite nth_error_app2, Nat.sub_diag by lia; reflexivity|rewrite P; lia].
Qed.
Lemma picture_first : forall t p, In p (pictures t) -> exists a q x y r b, t = a ++ (q, ImageBy (fst (fst p)) (snd (fst p)) (snd p) x y r, None) :: b /\ existsb (named (fst (fst p))) (pictures a) = false.
Proof.
  intros t. induction t as [|[[g c] e] t IH] using rev_ind; intros p H; [destruct H|]. rewrite pictures_snoc in H.
  assert (X : In p (pictures t) -> exists a q x y r b, t ++ [(g, c, e)] = a ++ (q, ImageBy (fst (fst p)) (snd (fst p)) (snd p) x y r, None) :: b /\ existsb (named (fst (fst p))) (pictures a) = false).
  { intros Hp. destruct (IH p Hp) as (a & q & x & y & r & b & E & N). exists a, q, x, y, r, (b ++ [(g, c, e)]). split; [rewrite E, <- app_assoc; reflexivity|exact N]. }
  unfold picture_step in H. cbn [fst snd] in H. destruct c; try (apply X; exact H). destruct e; [apply X; exact H|]. destruct (existsb _ _) eqn:Ex in H; [apply X; exact H|]. apply in_app_or in H. destruct H as [H|[<-|[]]]; [apply X; exact H|].
  exists t, g, x, y, rect, []. split; [reflexivity|exact Ex].
Qed.
Lemma no_palette : forall w rnd cfg t F, document w rnd cfg t F -> forall p, In p (pictures t) -> forall info, parseImg (gw_config w) (gw_inflate w) (gw_compress w) (snd p) (snd (fst p)) = Ok info -> colspace info <> B"Indexed".
Proof.
  intros w rnd cfg t F D p Hp info Pi. destruct (picture_first _ _ Hp) as (a & q & x & y & r & b & E & N). eapply palette_found; eauto.
  destruct D as (g0 & g & g' & S & R & _). destruct (runs_split _ _ _ _ R _ _ _ _ _ E) as (q' & Ra & _). pose proof (ld_names _ _ _ (laid_run _ _ _ _ _ _ S Ra)) as Nm.
  destruct (find _ _) as [z|] eqn:Ef; [|reflexivity]. pose proof (proj2 (find_named (fst (fst p)) _ _ Nm) (ex_intro _ z Ef)) as X. unfold named in N. rewrite X in N. discriminate.
Qed.

(** ** Objects *)
Lemma ok1 : forall A (a b : A), Ok a = Ok b -> b = a. Proof. intros. congruence. Qed.
Lemma img_prop_0 : forall i, img_prop i 0 = buildImgProp i. Proof. reflexivity. Qed.
Definition no_stream (key : option bytes) (F : bytes) (n : Z) : Prop := forall k, key = Some k -> forall d s, ~ stream_is F n d s.
Lemma two_lines : forall a e x y, (e = [] \/ e = [10] \/ e = [13; 10] \/ e = [13]) -> forall a', blen a = blen a' -> a ++ [10; 10] ++ B"endstream" ++ x <> a' ++ e ++ B"endstream" ++ y.
Proof.
  intros a e x y He. induction a as [|c a IH]; intros [|c' a'] L H; unfold blen in *; cbn [List.length] in L; try lia.
  - cbn [app] in H. destruct He as [->|[->|[->| ->]]]; discriminate.
  - injection H as -> H. apply (IH a'); [lia|exact H].
Qed.
Lemma image_built : forall i b c prot F n s rr, PngObject.made i b c -> 0 <= n -> img_build i 0 prot n = Ok s -> object_text F n (s ++ B"endobj" ++ [10] ++ rr) ->
  picture_data (option_map encryptionKey prot) F n (img_dict i b c) (idata i) /\ no_stream (option_map encryptionKey prot) F n.
Proof.
  intros i b c prot F n s rr M Hn E T. unfold img_build in E. destruct (enc_stream prot n (idata i) [10]) as [e| | |] eqn:Ee; cbn [bind] in E; try discriminate.
  destruct (enc_raw _ _ _ _ _ Hn Ee) as (raw & L & Er & D). rewrite img_prop_0 in E.
  set (tl := [10] ++ B"stream" ++ [10] ++ e ++ [10] ++ B"endstream" ++ [10]).
  assert (R : reads (s ++ B"endobj" ++ [10] ++ rr) (PDict (img_dict i b c)) (tl ++ B"endobj" ++ [10] ++ rr)).
  { apply dict_more. assert (Es : s = buildImgProp i ++ B"/Length " ++ itoa (blen (idata i)) ++ [10] ++ B">>" ++ tl) by exact (ok1 _ _ _ E). rewrite Es. apply image_reads. exact M. }
  pose proof (image_length i b c) as HL. rewrite <- L in HL. clear E Ee M. split; [exists raw; split; [|exact D]|]; destruct prot as [pr|]; cbn [option_map]; [| |intros k Hk d0 s0 (s1 & T1 & rest1 & e1 & e2 & tr & R1 & K1 & H1 & H2 & L1)|intros k Hk; discriminate].
  - exists (s ++ B"endobj" ++ [10] ++ rr), (tl ++ B"endobj" ++ [10] ++ rr), [10], [10; 10], ([10] ++ B"endobj" ++ [10] ++ rr). split; [exact T|]. split; [exact R|].
    split. { unfold tl. rewrite Er, <- !app_assoc. reflexivity. }
    split; [auto|]. split; [auto|exact HL].
  - exists (s ++ B"endobj" ++ [10] ++ rr). split; [exact T|]. exists (tl ++ B"endobj" ++ [10] ++ rr), [10], [10], ([10] ++ B"endobj" ++ [10] ++ rr). split; [exact R|].
    split. { unfold tl. rewrite Er, app_nil_r, <- !app_assoc. reflexivity. }
    split; [auto|]. split; [auto|exact HL].
  - pose proof (object_text_unique _ _ _ _ T T1) as Es. subst s1. destruct (reads_unique _ _ _ _ _ R R1) as (Ed & <-). assert (d0 = img_dict i b c) by congruence. subst d0.
    rewrite HL in L1. assert (Lb : blen raw = blen s0) by congruence.
    assert (K2 : skip (tl ++ B"endobj" ++ [10] ++ rr) = B"stream" ++ [10] ++ raw ++ [10; 10] ++ B"endstream" ++ [10] ++ B"endobj" ++ [10] ++ rr). { unfold tl. rewrite Er, <- !app_assoc. reflexivity. }
    rewrite K2 in K1. apply app_inv_head in K1. destruct H1 as [-> | ->]; [|discriminate]. apply app_inv_head in K1. exact (two_lines _ _ _ _ H2 _ Lb K1).
Qed.

Theorem doc_pictures : forall w rnd cfg t F key, document w rnd cfg t F -> blen F < 10 ^ 10 -> 0 <= cfg_perm cfg < 256 -> (forall i, info_of t = Some i -> simple_info i) -> opens F (cfg_user cfg) key ->
  forall a q id d bey x y r b, t = a ++ (q, ImageBy id d bey x y r, None) :: b ->
  exists p n info, picture_of t id = Some p /\ resource F (B"XObject") (B"I" ++ itoa (fst (place id (u_cache (g_cur q)) 0) + 1)) n /\
    parseImg (gw_config w) (gw_inflate w) (gw_compress w) (snd p) (snd (fst p)) = Ok info /\ 1 <= n /\
    match createSMask info with
    | None => forall b c, PngObject.made info b c -> picture_data key F n (img_dict info b c) (idata info) /\ no_stream key F n
    | Some m => exists j, n <= j /\ (forall b c, PngObject.made (setSMaskObjID info j) b c -> picture_data key F n (img_dict (setSMaskObjID info j) b c) (idata info) /\ no_stream key F n) /\
        (forall b c, PngObject.made m b c -> picture_data key F (j + 1) (img_dict m b c) (idata m) /\ no_stream key F (j + 1))
    end.
Proof.
  intros w rnd cfg t F key D Hs Hpm HI HO a q id d bey x y r b Et.
  destruct (doc_kinds _ _ _ _ _ D Hs) as (g0 & g & S & R & K). rewrite (doc_key _ _ _ _ _ _ _ _ D Hs Hpm HI HO S R). destruct (runs_split _ _ _ _ R _ _ _ _ _ Et) as (q' & Ra & _).
  destruct (picture_place w cfg rnd g0 a q id d bey x y r b S Ra) as (j & p & Fp & Np & Pl). rewrite <- Et in Fp, Np.
  destruct (ld_rels _ _ _ (laid_run _ _ _ _ _ _ S R)) as (rs & xs & N2 & _ & F2). destruct (nth_forall2 _ _ _ _ _ F2 _ _ Np) as (i & Ni & info & info' & rgb & Pi & Hi & Ki & M).
  pose proof (no_palette _ _ _ _ _ D p (nth_error_In _ _ Np) _ Pi) as NP. destruct (M NP) as (-> & M2). clear M.
  exists p, (i + 1), info. split; [exact Fp|]. split.
  { exists (procset_dict rs xs), (xobj_entries xs 0). split; [eapply resource_at; eauto|]. split; [reflexivity|]. rewrite Pl. apply (xobj_lookup xs 0 j i Ni). }
  split; [exact Pi|].
  split; [lia|]. destruct (K _ _ Ki Logic.I) as (lk & bb & kd & lk' & rr & B1 & _ & T). cbn [build1] in B1. destruct (img_build info' 0 (g_prot g) (1 + Z.of_nat (Z.to_nat i))) as [s| | |] eqn:Ei; cbn [bind] in B1; try discriminate. apply ok3 in B1. subst bb.
  replace (1 + Z.of_nat (Z.to_nat i)) with (i + 1) in * by lia. destruct (createSMask info) as [m|]; [|subst info'; intros; eapply image_built; eauto; lia].
  destruct M2 as (k & Lk & -> & Km). destruct (K _ _ Km Logic.I) as (lm & bm & kdm & lm' & rm & B2 & _ & T2). cbn [build1] in B2. destruct (img_build m 0 (g_prot g) (1 + Z.of_nat (Z.to_nat k))) as [sm| | |] eqn:Em; cbn [bind] in B2; try discriminate. apply ok3 in B2. subst bm.
  replace (1 + Z.of_nat (Z.to_nat k)) with (k + 1) in * by lia. exists k. split; [lia|]. split; [|intros; eapply image_built; eauto; lia].
  intros b1 c1 Hm. change (idata info) with (idata (setSMaskObjID info k)). eapply image_built; eauto. lia.
Qed.

Section Kinds.
Variables (w : gworld) (rnd : bytes) (cfg : gconfig) (t : trace) (F : bytes) (key : option bytes).
Hypothesis D : document w rnd cfg t F.
Hypothesis Hs : blen F < 10 ^ 10.
Hypothesis Hp : 0 <= cfg_perm cfg < 256.
Hypothesis HI : forall i, info_of t = Some i -> simple_info i.
Hypothesis HO : opens F (cfg_user cfg) key.
Theorem doc_jpeg : forall a q id d0 bey0 x y r b, t = a ++ (q, ImageBy id d0 bey0 x y r, None) :: b ->
  forall img bey cs wd h, picture_of t id = Some (id, img, bey) -> gw_config w img = FJpeg (Some cs) wd h -> In cs [B"DeviceGray"; B"DeviceRGB"; B"DeviceCMYK"] ->
  exists n d, resource F (B"XObject") (B"I" ++ itoa (fst (place id (u_cache (g_cur q)) 0) + 1)) n /\ jpeg_dict wd h cs d /\ picture_data key F n d img /\ (forall k, key = Some k -> forall d' s, ~ stream_is F n d' s).
Proof.
  intros a q id d0 bey0 x y r b Et img bey cs wd h Pd Hc Hcs. destruct (doc_pictures _ _ _ _ _ _ D Hs Hp HI HO a q id d0 bey0 x y r b Et) as (p & n & info & Fp & Rs & Pi & _ & X).
  rewrite Pd in Fp. assert (p = (id, img, bey)) by congruence. subst p. cbn [fst snd] in Pi. destruct (jpeg_info _ (gw_inflate w) (gw_compress w) bey _ _ _ _ Hcs Hc) as (i & E & Es & Ed & M & Jd).
  assert (i = info) by congruence. subst i. rewrite Es in X. exists n, (img_dict info 8 None). split; [exact Rs|]. split; [exact Jd|]. rewrite <- Ed. apply X. exact M.
Qed.
Theorem doc_opaque : forall a q id d0 bey0 x y r b, t = a ++ (q, ImageBy id d0 bey0 x y r, None) :: b ->
  forall bey wd h depth ct crc cs rest, 0 <= wd < 32768 -> 0 <= h < 32768 -> depth <= 8 -> ct = 0 \/ ct = 2 -> List.length crc = 4%nat -> Forall (chunk_read ct) cs ->
  let img := png_file (header wd h depth ct crc) cs rest in picture_of t id = Some (id, img, bey) -> gw_config w img = FPng ->
  exists n d, resource F (B"XObject") (B"I" ++ itoa (fst (place id (u_cache (g_cur q)) 0) + 1)) n /\
    png_dict wd h depth (if ct =? 2 then 3 else 1) (if ct =? 0 then PName (B"DeviceGray") else PName (B"DeviceRGB")) d /\ picture_data key F n d (image_data cs) /\ (forall k, key = Some k -> forall d' s, ~ stream_is F n d' s).
Proof.
  intros a q id d0 bey0 x y r b Et bey wd h depth ct crc cs rest Hw Hh Hd Hct C4 Hcs img Pd Hc. destruct (doc_pictures _ _ _ _ _ _ D Hs Hp HI HO a q id d0 bey0 x y r b Et) as (p & n & info & Fp & Rs & Pi & _ & X).
  rewrite Pd in Fp. assert (p = (id, img, bey)) by congruence. subst p. cbn [fst snd] in Pi.
  destruct (opaque_info (gw_config w) (gw_inflate w) (gw_compress w) bey wd h depth ct crc cs rest) as (i & E & Es & Ed & M & Pg); auto; [lia|intros ->; lia|]. fold img in E.
  assert (i = info) by congruence. subst i. rewrite Es in X. exists n, (img_dict info depth (Some (if ct =? 2 then 3 else 1))). split; [exact Rs|]. split; [|rewrite <- Ed; apply X; exact M].
  destruct Hct as [-> | ->]; exact Pg.
Qed.
Theorem doc_rgba : (forall x, gw_compress w x <> [] /\ gw_inflate w (gw_compress w x) = Ok x) ->
  forall a q id d0 bey0 x y r b, t = a ++ (q, ImageBy id d0 bey0 x y r, None) :: b ->
  forall bey wd h crc cs rest z extra rws, Z.of_nat h < 32768 -> Z.of_nat wd < 32768 -> List.length crc = 4%nat -> Forall (chunk_read 6) cs ->
  gw_inflate w (image_data cs) = Ok (z ++ extra) -> image 4 wd [] z rws -> List.length rws = h ->
  let img := png_file (header (Z.of_nat wd) (Z.of_nat h) 8 6 crc) cs rest in picture_of t id = Some (id, img, bey) -> gw_config w img = FPng ->
  exists n d j dm cbytes mbytes color alpha, resource F (B"XObject") (B"I" ++ itoa (fst (place id (u_cache (g_cur q)) 0) + 1)) n /\
    picture_data key F n d cbytes /\ png_dict (Z.of_nat wd) (Z.of_nat h) 8 3 (PName (B"DeviceRGB")) d /\
    gw_inflate w cbytes = Ok color /\ image 3 wd [] color (map rgb rws) /\
    picture_data key F (j + 1) dm mbytes /\ png_dict (Z.of_nat wd) (Z.of_nat h) 8 1 (PName (B"DeviceGray")) dm /\
    gw_inflate w mbytes = Ok alpha /\ image 1 wd [] alpha (map alphas rws) /\
    lookup (B"SMask") d = Some (PRef j 0).
Proof.
  intros HZ a q id d0 bey0 x y r b Et bey wd h crc cs rest z extra rws Hh Hw C4 Hcs I Im L img Pd Hc. destruct (doc_pictures _ _ _ _ _ _ D Hs Hp HI HO a q id d0 bey0 x y r b Et) as (p & n & info & Fp & Rs & Pi & _ & X).
  rewrite Pd in Fp. assert (p = (id, img, bey)) by congruence. subst p. cbn [fst snd] in Pi.
  destruct (rgba_info (gw_config w) (gw_inflate w) (gw_compress w) bey wd h crc cs rest z extra rws) as (i & m & color & alpha & E & Es & Mm & Dm & Y & Zc & Ic & Za & Ia); auto. fold img in E.
  assert (i = info) by congruence. subst i. rewrite Es in X. destruct X as (j & _ & X1 & X2). destruct (Y j) as (Mi & Di & Si).
  exists n, (img_dict (setSMaskObjID info j) 8 (Some 3)), j, (img_dict m 8 (Some 1)), (idata info), (idata m), color, alpha.
  split; [exact Rs|]. split; [exact (proj1 (X1 _ _ Mi))|]. split; [exact Di|]. split; [exact Zc|]. split; [exact Ic|]. split; [exact (proj1 (X2 _ _ Mm))|]. split; [exact Dm|]. split; [exact Za|]. split; [exact Ia|exact Si].
Qed.
End Kinds.
