(** Concrete histories. *)
From Coq Require Import String List ZArith Lia Bool Permutation.
From Coq.Floats Require Import SpecFloat.
From Verif Require Import Base BaseProofs Output Props PdfData Crawl Inject Md5Rc4 Crypto Png Utf8 Float64 Ttf Subset Text Wrap Parse Api ApiSpec TestFont.
Open Scope Z_scope.
Open Scope list_scope.

(** Every image that is not empty is a 4 by 4 JPEG; nothing is compressed; numbers are whole. *)
Definition plain_world : world :=
  mkWorld (fun d => match d with [] => FBad | _ => FJpeg (Some (B"DeviceRGB")) 4 4 end) (fun b => Ok b) (fun b => b) whole (fun b => Ok b).
Definition plain_choices (room : bool) : choices := mkChoices (fun _ _ l => l) room (fun _ => []).
Definition sample_file : bytes := toStream sample_page 5 1 None.
Definition after (cs : list call) : res state := do q <- history plain_world 5 cs new_pdft; Ok (fst q).
Definition answers (cs : list call) : res (list (option err)) := do q <- history plain_world 5 cs new_pdft; Ok (map snd (snd q)).
Definition saves (room : bool) (cs : list call) : res bytes := do s <- after cs; do q <- saveTo plain_world 5 (plain_choices room) s; snd q.
Definition put_text (t : bytes) : call := KInsert t 1 (fofz 10) (fofz 20) (fofz 100) (fofz 20) 0 None.
Definition put_img (i : bytes) (page : Z) : call := KImg [] i page (fofz 10) (fofz 20) (fofz 100) (fofz 20).
Definition put_cached (i : bytes) : call := KImgCache [] i 1 (fofz 10) (fofz 20) (fofz 100) (fofz 20).
Definition start : list call := [KOpen sample_file; KAddFont (B"T") (Some test_font) [0; 0; 0; 0]; KSetFont (B"T") (B"u") 12].

(** Two pages, 100 and 200 high. *)
Definition two_pages : list obj :=
  [mkObj 1 (B"<</Type/Catalog/Pages 2 0 R>>"); mkObj 2 (B"<</Type/Pages/Count 2/Kids[3 0 R 5 0 R]>>");
   mkObj 3 (B"<</Type/Page/Parent 2 0 R/MediaBox[0 0 50 100]/Resources<</ProcSet 7 0 R>>/Contents 4 0 R>>");
   mkObj 4 (content_object (B"q Q ")); mkObj 5 (B"<</Type/Page/Parent 2 0 R/MediaBox[0 0 50 200]/Resources<</ProcSet 7 0 R>>/Contents 6 0 R>>");
   mkObj 6 (content_object (B"q Q ")); mkObj 7 (B"[/PDF]")].
Definition two_file : bytes := toStream two_pages 7 1 None.

(** [sample_file] updated: page object 3 again, 500 high. *)
Definition newer : obj := mkObj 3 (B"<</Type/Page/Parent 2 0 R/MediaBox[0 0 612 500]/Resources<</Font<</F1 5 0 R>>>>/Contents 4 0 R>>").
Definition updated_file : bytes :=
  sample_file ++ obj_text newer ++ B"xref" ++ [10] ++ B"3 1" ++ [10] ++ formatXrefline (blen sample_file) ++ B" 00000 n" ++ [10] ++ B"trailer" ++ [10] ++ B"<</Root 1 0 R>>" ++ [10] ++ B"startxref" ++ [10] ++ B"0".

Definition bad_text : bytes := [65; 240; 159; 152; 130].
Definition flip (t : bytes) : res (list bytes) := Ok [t].
Definition wrap_text (t : bytes) : call := KWrap t 1 (fofz 10) (fofz 20) (fofz 100) (fofz 20) 0 None (Some flip).

(** A text, a copied page, an image, an image with transparency would be next; the numbers after reopening. *)
Definition busy : list call :=
  [KOpen two_file; KAddFont (B"T") (Some test_font) [0; 0; 0; 0]; KAddFont (B"U") (Some test_font) [0; 0; 0; 0]; KSetFont (B"T") (B"u") 12;
   put_img [1] 2; KDuplicate 1 1; put_img [2] 1].
Example numbers_case : (do F <- saves false busy; do s <- after [KOpen F]; Ok (map oid (objs (d_pdf (s_doc s)))))
  = Ok ([1; 2; 3; 4; 5; 6; 7] ++ [8; 9] ++ [11; 12; 13; 14; 15] ++ [17; 18; 19; 20; 21] ++ [22; 23]).
Proof. vm_compute. reflexivity. Qed.
Example protected_case : exists F, saves false (busy ++ [KProtect (B"random") 4 (B"user") (B"owner")]) = Ok F /\ contains (B"/Encrypt 24 0 R") F = true.
Proof. eexists. split; vm_compute; reflexivity. Qed.
Example cached_case : exists s, after [KOpen two_file; put_cached [1]; put_cached [2]; put_cached [1]] = Ok s /\
  List.length (s_imgs s) = 2%nat /\ flat_map (fun c => match c with CImg i _ _ _ _ _ _ => [i] | _ => [] end) (s_cont s) = [0; 1; 0]%nat.
Proof. eexists. split; [vm_compute; reflexivity|]. split; reflexivity. Qed.
