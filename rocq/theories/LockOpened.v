(** A protected document of GoPdf that pdft opens and saves. *)
From Coq Require Import String List ZArith Lia Bool.
From Coq.Floats Require Import SpecFloat.
From Verif Require Import Base BaseProofs Output OutputSpec Md5Rc4 Crypto CryptoSpec PdfSyntax PdfSyntaxProofs Float64 TextSpec PdfData Parse ParseFinal FontChainSpec Api ApiCases LockTrailerSpec LockTrailer
  GoPdf GoPdfSpec GoPdfFile GoPdfTree GoPdfDocSpec GoPdfMain GoPdfCases GoPdfOpenCases KeepProofs PdfSyntax.
Open Scope Z_scope.
Open Scope list_scope.

Definition lock_prog : list gcall := [CompressLevel 0; AddPage (fofz 100, fofz 50); Line (fofz 10) (fofz 20) (fofz 30) (fofz 40)].
Definition locked85 := save gw_id [] locked_cfg lock_prog.
Definition line85 : bytes := B"10.00 30.00 m 30.00 10.00 l s" ++ [10].
Definition world00 : world := mkWorld (w_config plain_world) (fun b => Ok b) (fun b => b) whole00 (fun b => Ok b).
Definition resaved85 : bytes := match (do q <- history world00 5 [KOpen (s_file locked85)] new_pdft; do q2 <- saveTo world00 5 (plain_choices false) (fst q); snd q2) with Ok F => F | _ => [] end.
Definition prot85 : protection := match setProtection [] 4 (B"user") (B"owner") with Ok p => p | _ => mkProt [] [] 0 [] end.
Definition sealed85 : bytes := match rc4 (object_key (encryptionKey prot85) 5 0) line85 with Ok x => x | _ => [] end.
Definition objs85 (F : bytes) : list obj := match history world00 5 [KOpen F] new_pdft with Ok (s, _) => objs (d_pdf (s_doc s)) | _ => [] end.

Lemma opened85 : exists s s' s2 log2, history world00 5 [KOpen (s_file locked85)] new_pdft = Ok (s, [(KOpen (s_file locked85), None)]) /\
  saveTo world00 5 (plain_choices false) s = Ok (s', Ok resaved85) /\ history world00 5 [KOpen resaved85] new_pdft = Ok (s2, log2) /\
  objs (d_pdf (s_doc s2)) = objs85 resaved85 /\ (blen resaved85 <? 10 ^ 10) = true.
Proof. eexists. eexists. eexists. eexists. repeat (split; [vm_compute; reflexivity|]). vm_compute; reflexivity. Qed.
Lemma prot85_ok : setProtection [] 4 (B"user") (B"owner") = Ok prot85. Proof. vm_compute. reflexivity. Qed.
Lemma sealed85_ok : rc4 (object_key (encryptionKey prot85) 5 0) sealed85 = Ok line85. Proof. vm_compute. reflexivity. Qed.
Lemma object85 : exists o, the_object (objs85 resaved85) 5 o /\ stream_object (odata o) [(B"Length", PInt 45)] (sealed85 ++ [10] ++ B"[] 0 d" ++ [10] ++ B"0.00 w" ++ [10]).
Proof.
  exists (mkObj 5 ([10] ++ B"<<" ++ [10] ++ B"/Length 45" ++ [10] ++ B">>" ++ [10] ++ B"stream" ++ [10] ++ sealed85 ++ [10] ++ B"[] 0 d" ++ [10] ++ B"0.00 w" ++ [10] ++ B"endstream" ++ [10])). split.
  - object_it 4%nat.
  - exists ([10] ++ B"stream" ++ [10] ++ sealed85 ++ [10] ++ B"[] 0 d" ++ [10] ++ B"0.00 w" ++ [10] ++ B"endstream" ++ [10]), [10], [], [10].
    split; [exists 20%nat; vm_compute; reflexivity|]. split; [vm_compute; reflexivity|]. split; [left; reflexivity|]. split; [left; reflexivity|]. vm_compute; reflexivity.
Qed.
Lemma sealed85_ne : sealed85 <> line85. Proof. vm_compute. discriminate. Qed.
Lemma fair_plain : Crawl.fair (ch_ord (plain_choices false)).
Proof. intros p A l. apply Permutation.Permutation_refl. Qed.

Lemma file85 : is_file (s_file locked85) (s_bufs locked85) (Some 6) None. Proof. apply s_is_file. vm_compute. reflexivity. Qed.
Lemma stream85 : stream_is (s_file locked85) 5 [(B"Length", PInt 30)] sealed85.
Proof.
  apply (case_stream _ _ _ _ 4 (match nth_error (s_bufs locked85) 4 with Some b => b | None => [] end) _ ([10] ++ B"stream" ++ [10] ++ sealed85 ++ [10] ++ B"endstream" ++ [10]) _ file85);
    [vm_compute; reflexivity|intros t'; vm_compute; reflexivity| |vm_compute; reflexivity].
  exists [10]. eexists. split; [reflexivity|]. split; [blanks|left; reflexivity].
Qed.
Lemma page85 : page_is (s_file locked85) 4 (cfg_w locked_cfg, cfg_h locked_cfg) (fofz 100, fofz 50) 5.
Proof.
  exists [(B"Type", PName (B"Page")); (B"Parent", PRef 2 0); (B"Resources", PRef 3 0); (B"Contents", PRef 5 0); (B"MediaBox", PArr [PInt 0; PInt 0; PWord (B"100.00"); PWord (B"50.00")])].
  split; [apply (case_object _ _ _ _ 3 (match nth_error (s_bufs locked85) 3 with Some b => b | None => [] end) _ [10] file85); [vm_compute; reflexivity|intros t'; vm_compute; reflexivity|reflexivity|blanks]|].
  split; [reflexivity|]. split; [reflexivity|]. split; [reflexivity|]. split; [reflexivity|].
  match goal with |- match ?l with _ => _ end => change l with (Some (PArr [PInt 0; PInt 0; PWord (B"100.00"); PWord (B"50.00")])) end. cbv iota. apply (box_is (fofz 100) (fofz 50)); reflexivity.
Qed.
Lemma no_lock : forall F (e : option err) d, (lookup (B"Encrypt") d <> None <-> exists x, In x [(KOpen F, e)] /\ protects x) -> lookup (B"Encrypt") d = None.
Proof. intros F e d E. destruct (lookup (B"Encrypt") d) as [v|]; [|reflexivity]. exfalso. destruct (proj1 E ltac:(discriminate)) as (x & [<-|[]] & X). exact X. Qed.

Theorem lost_case : exists cfg t F key w s log s' F' d d' x s2 log2 o d2, document gw_id [] cfg t F /\ map (fun x => snd (fst x)) t = lock_prog /\ cfg_use cfg = true /\
  opens F (cfg_user cfg) (Some key) /\ page_is F 4 (cfg_w cfg, cfg_h cfg) (fofz 100, fofz 50) 5 /\ stream_is F 5 d x /\ decodes (fun b => Ok b) (Some key) F 5 d line85 /\
  history w 5 [KOpen F] new_pdft = Ok (s, log) /\ log = [(KOpen F, None)] /\ saveTo w 5 (plain_choices false) s = Ok (s', Ok F') /\
  trailer_entries F' d' /\ lookup (B"Encrypt") d' = None /\
  history w 5 [KOpen F'] new_pdft = Ok (s2, log2) /\ the_object (objs (d_pdf (s_doc s2))) 5 o /\
  stream_object (odata o) d2 (x ++ [10] ++ B"[] 0 d" ++ [10] ++ B"0.00 w" ++ [10]) /\ lookup (B"Filter") d2 = None /\ x <> line85.
Proof.
  destruct (s_document gw_id [] locked_cfg lock_prog locked85 eq_refl ltac:(vm_compute; reflexivity)) as (D & M).
  assert (Hs : blen (s_file locked85) < 10 ^ 10) by (assert (X : (blen (s_file locked85) <? 10 ^ 10) = true) by (vm_compute; reflexivity); lia).
  assert (Hi : info_of (s_trace locked85) = None) by (vm_compute; reflexivity).
  destruct (doc_opens _ _ _ _ _ D Hs) as (_ & P); [intros i E; rewrite Hi in E; discriminate|].
  destruct (P eq_refl ltac:(cbn; lia) prot85 prot85_ok) as (O & _). clear P.
  destruct object85 as (o & O1 & O2). destruct opened85 as (s & s' & s2 & log2 & H1 & H2 & H3 & H4 & H5).
  destruct (saved_trailer _ _ _ _ _ _ _ _ H1 fair_plain H2 ltac:(lia)) as (d' & T0 & _ & E). pose proof (proj2 (T0 d') eq_refl) as T.
  exists locked_cfg, (s_trace locked85), (s_file locked85), (encryptionKey prot85), world00, s. eexists. exists s', resaved85, [(B"Length", PInt 30)], d', sealed85, s2, log2, o, [(B"Length", PInt 45)].
  split; [exact D|]. split; [exact M|]. split; [reflexivity|]. split; [exact O|].
  split; [exact page85|].
  split; [exact stream85|]. split. { exists sealed85, line85. split; [exact stream85|]. split; [exact sealed85_ok|reflexivity]. }
  split; [exact H1|]. split; [reflexivity|]. split; [exact H2|]. split; [exact T|].
  split; [exact (no_lock _ _ _ E)|].
  split; [exact H3|]. rewrite H4. split; [exact O1|]. split; [exact O2|]. split; [reflexivity|exact sealed85_ne].
Qed.

(** Protection set before the document is opened, and no protection. *)
Definition answers_of (cs : list call) : res (bytes * list entry) :=
  do q <- history plain_world 5 cs new_pdft; do r <- saveTo plain_world 5 (plain_choices false) (fst q); do F <- snd r; Ok (F, snd q).
Lemma both_cases : (exists F log, answers_of [KProtect [] 4 (B"user") (B"owner"); KOpen sample_file] = Ok (F, log) /\ map snd log = [None; None] /\ contains (B"/Encrypt 6 0 R") F = true) /\
  (exists F log, answers_of [KOpen sample_file] = Ok (F, log) /\ map snd log = [None] /\ contains (B"/Encrypt") F = false).
Proof. split; eexists; eexists; (split; [vm_compute; reflexivity|split; vm_compute; reflexivity]). Qed.
