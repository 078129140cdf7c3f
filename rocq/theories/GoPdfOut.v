(** Trailers, encryption dictionaries and streams of written files. *)
From Coq Require Import String List ZArith Lia Bool.
From Coq.Floats Require Import SpecFloat.
From Verif Require Import Base BaseProofs Utf8 Output OutputSpec Md5Rc4 Crypto CryptoSpec CryptoProofs HexProofs PdfSyntax PdfSyntaxProofs Float64 Ttf Subset CharMap Text TextSpec TextNumbers TextDraw TextBody
  ApiIds GoPdf GoPdfSpec GoPdfFile GoPdfPages GoPdfRun GoPdfDoc GoPdfTree GoPdfDrawSpec GoPdfDraw GoPdfLine GoPdfState GoPdfText GoPdfDocSpec.
Open Scope Z_scope.
Open Scope list_scope.

(** ** Contents *)

Lemma content_packed : forall w level prot id s b st r, 0 <= id -> content_build w level prot id [] s = Ok (b, st) ->
  exists d raw mid, stream_object (b ++ B"endobj" ++ [10] ++ r) d raw /\ decrypted (option_map encryptionKey prot) id raw mid /\ 
    if level =? 0 then lookup (B"Filter") d = None /\ mid = s else lookup (B"Filter") d = Some (PName (B"FlateDecode")) /\ mid = gw_deflate w level s.
Proof.
  intros w level prot id s b st r Hid H. unfold content_build in H. change ([] ++ s) with s in H. cbv zeta in H.
  set (mid := if negb (level =? 0) then gw_deflate w level s else s) in *.
  assert (EX : exists raw eol2, b = B"<<" ++ [10] ++ (if negb (level =? 0) then B"/Filter/FlateDecode" else []) ++ B"/Length " ++ itoa (blen raw) ++ [10] ++ B">>" ++ [10]
      ++ B"stream" ++ [10] ++ (raw ++ eol2) ++ B"endstream" ++ [10] /\ (eol2 = [] \/ eol2 = [10]) /\ decrypted (option_map encryptionKey prot) id raw mid).
  { destruct prot as [p|]; cbn [enc_stream bind] in H.
    - destruct (rc4 (objectkey p id) mid) as [c| | |] eqn:E; cbn [bind] in H; try discriminate. exists c, [10].
      assert (L : blen c = blen mid) by (unfold blen; rewrite (rc4_len _ _ _ E); reflexivity). split; [rewrite L; congruence|]. split; [right; reflexivity|].
      cbn [option_map decrypted]. rewrite <- objectkey_spec by exact Hid. apply rc4_twice. exact E.
    - exists mid, (if negb (level =? 0) then [10] else []). split; [congruence|]. split; [destruct (negb (level =? 0)); auto|reflexivity]. }
  destruct EX as (raw & eol2 & -> & He & D). clear H.
  set (len := B"/Length " ++ itoa (blen raw) ++ [10] ++ B">>" ++ [10] ++ B"stream" ++ [10] ++ raw ++ eol2 ++ B"endstream" ++ [10] ++ B"endobj" ++ [10] ++ r).
  assert (RL : reads_entries len [(B"Length", PInt (blen raw))] ([10] ++ B"stream" ++ [10] ++ raw ++ eol2 ++ B"endstream" ++ [10] ++ B"endobj" ++ [10] ++ r)).
  { apply (last_int (B"Length") (blen raw)). regw. }
  destruct (negb (level =? 0)) eqn:EL.
  - exists [(B"Filter", PName (B"FlateDecode")); (B"Length", PInt (blen raw))], raw, mid. split; [|split; [exact D|]].
    + exists ([10] ++ B"stream" ++ [10] ++ raw ++ eol2 ++ B"endstream" ++ [10] ++ B"endobj" ++ [10] ++ r), [10], eol2, ([10] ++ B"endobj" ++ [10] ++ r). split; [|split; [reflexivity|split; [left; reflexivity|split; [tauto|reflexivity]]]].
      rewrite <- !app_assoc. apply (reads_dict []); [apply Forall_nil|].
      match goal with |- reads_entries ([10] ++ B"/Filter/FlateDecode" ++ ?x) _ _ => change x with len end.
      change ([10] ++ B"/Filter/FlateDecode" ++ len) with ([10] ++ 47 :: B"Filter" ++ [] ++ 47 :: B"FlateDecode" ++ len).
      eapply entries_step; [blanks|regw|reflexivity|apply reads_name; [blanks|regw|reflexivity]|exact RL].
    + destruct (level =? 0); [discriminate|]. split; reflexivity.
  - exists [(B"Length", PInt (blen raw))], raw, mid. split; [|split; [exact D|destruct (level =? 0); [split; reflexivity|discriminate]]].
    exists ([10] ++ B"stream" ++ [10] ++ raw ++ eol2 ++ B"endstream" ++ [10] ++ B"endobj" ++ [10] ++ r), [10], eol2, ([10] ++ B"endobj" ++ [10] ++ r). split; [|split; [reflexivity|split; [left; reflexivity|split; [tauto|reflexivity]]]].
    rewrite <- !app_assoc. apply (reads_dict []); [apply Forall_nil|].
    match goal with |- reads_entries ([10] ++ [] ++ ?x) _ _ => change (reads_entries ([10] ++ len) [(B"Length", PInt (blen raw))] ([10] ++ B"stream" ++ [10] ++ raw ++ eol2 ++ B"endstream" ++ [10] ++ B"endobj" ++ [10] ++ r)) end.
    apply entries_skip; [blanks|exact RL].
Qed.
Lemma content_reads : forall w inflate level prot id s b st r, (forall l x, inflate (gw_deflate w l x) = Ok x) -> 0 <= id -> content_build w level prot id [] s = Ok (b, st) ->
  exists d raw mid, stream_object (b ++ B"endobj" ++ [10] ++ r) d raw /\ decrypted (option_map encryptionKey prot) id raw mid /\ unfiltered inflate (lookup (B"Filter") d) mid s.
Proof.
  intros w inflate level prot id s b st r HI Hid H. destruct (content_packed _ _ _ _ _ _ _ r Hid H) as (d & raw & mid & S & D & P). exists d, raw, mid. split; [exact S|]. split; [exact D|].
  destruct (level =? 0); destruct P as (-> & ->); [reflexivity|]. split; [reflexivity|apply HI].
Qed.

(** ** Trailers *)

Definition info_pv (key v : bytes) : list (bytes * pv) := match v with [] => [] | _ => [(key, PHex (B"FEFF" ++ encode_utf8 v))] end.
Definition info_pvs (i : ginfo) : list (bytes * pv) :=
  info_pv (B"Author") (i_author i) ++ info_pv (B"Title") (i_title i) ++ info_pv (B"Subject") (i_subject i) ++ info_pv (B"Creator") (i_creator i) ++ info_pv (B"Producer") (i_producer i)
  ++ match i_date i with None => [] | Some s => [(B"CreationDate", PStr (B"D:" ++ s))] end.

Lemma reads_after : forall w s v r, blank w -> reads s v r -> reads (w ++ s) v r.
Proof. intros w s v r Hw ([|f] & H); [discriminate|]. exists (S f). cbn [value] in *. rewrite skip_blank by exact Hw. exact H. Qed.
Lemma info_hex : forall v, B"FEFF" ++ encode_utf8 v = flat_map hex4 (65279 :: runes v).
Proof. reflexivity. Qed.
Lemma info_codes : forall v, in_plane v -> Forall (fun n => 0 <= n < 65536) (65279 :: runes v).
Proof. intros v H. constructor; [lia|exact H]. Qed.
Lemma info_line : forall k v s l r, reg_word k -> in_plane v -> reads_entries s l r -> reads_entries (info_entry k v ++ s) (info_pv k v ++ l) r.
Proof.
  intros k v s l r Hk Hv H. unfold info_entry, info_pv. destruct v as [|c v]; [exact H|]. set (v' := c :: v) in *. clearbody v'. rewrite <- !app_assoc.
  match goal with |- reads_entries (B"/" ++ k ++ B" <FEFF" ++ ?x) (?e ++ l) _ => change (reads_entries (47 :: k ++ B" " ++ B"<" ++ B"FEFF" ++ x) ((k, PHex (B"FEFF" ++ encode_utf8 v')) :: l) r) end.
  rewrite (app_assoc (B"FEFF")), info_hex.
  eapply line_any; [exact Hk|reflexivity| |exact H]. apply reads_after; [blanks|]. apply reads_hex. apply info_codes. exact Hv.
Qed.
Lemma lit_plain : forall s r, Forall (fun c => c <> 13 /\ c <> 40 /\ c <> 41 /\ c <> 92) s -> lit 0 (s ++ B")" ++ r) = Some (s, r).
Proof.
  intros s r H. induction H as [|c s Hc H IH]; [reflexivity|]. cbn [app lit].
  replace (c =? 41) with false by lia. replace (c =? 40) with false by lia. replace (c =? 13) with false by lia. replace (c =? 92) with false by lia.
  change (41 :: r) with (B")" ++ r). cbn [app] in IH. rewrite IH. reflexivity.
Qed.

(** The information dictionary with what follows; with a date one ">>" more is
    there. *)
Lemma info_reads : forall i r, simple_info i -> reads (B" <<" ++ [10] ++
     info_entry (B"Author") (i_author i) ++ info_entry (B"Title") (i_title i) ++ info_entry (B"Subject") (i_subject i)
  ++ info_entry (B"Creator") (i_creator i) ++ info_entry (B"Producer") (i_producer i)
  ++ match i_date i with None => [] | Some d => B"/CreationDate(D:" ++ d ++ B")>>" ++ [10] end ++ B" >>" ++ [10] ++ r) (PDict (info_pvs i))
  (match i_date i with None => [10] ++ r | Some _ => [10] ++ B" >>" ++ [10] ++ r end).
Proof.
  intros i r (H1 & H2 & H3 & H4 & H5 & H6). change (B" <<" ++ ?x) with (B" " ++ B"<<" ++ x). apply reads_dict; [blanks|]. apply entries_skip; [blanks|]. unfold info_pvs.
  apply info_line; [regw|assumption|]. apply info_line; [regw|assumption|]. apply info_line; [regw|assumption|]. apply info_line; [regw|assumption|]. apply info_line; [regw|assumption|].
  destruct (i_date i) as [d|].
  - rewrite <- !app_assoc.
    match goal with |- reads_entries (B"/CreationDate(D:" ++ d ++ ?x) _ _ => change (reads_entries ([] ++ 47 :: B"CreationDate" ++ [] ++ B"(" ++ B"D:" ++ d ++ B")" ++ (B">>" ++ [10] ++ B" >>" ++ [10] ++ r)) [(B"CreationDate", PStr (B"D:" ++ d))] ([10] ++ B" >>" ++ [10] ++ r)) end.
    eapply entries_step; [blanks|regw|reflexivity|apply reads_str; [apply Forall_nil|]|].
    { rewrite app_assoc. apply lit_plain. apply Forall_app. split; [|exact H6]. apply Forall_forall; intros x Hx; cbn in Hx; unfold ascii; lia. }
    apply (entries_end []). apply Forall_nil.
  - cbn [app]. apply (entries_end (B" ")). blanks.
Qed.

Definition trailer_pvs (n : Z) (enc : option Z) (info : option ginfo) : list (bytes * pv) :=
  [(B"Size", PInt (n + 1)); (B"Root", PRef 1 0)] ++ match enc with Some e => [(B"Encrypt", PRef e 0); (B"ID", PArr [PStr []; PStr []])] | None => [] end
  ++ match info with Some i => [(B"Info", PDict (info_pvs i))] | None => [] end.
Lemma trailer_reads : forall n enc info r, (forall i, info = Some i -> simple_info i) -> exists r', reads (trailer_dict n enc info r) (PDict (trailer_pvs n enc info)) r' /\
  ((forall i, info = Some i -> i_date i = None) -> r' = [10] ++ r) /\ (forall i d, info = Some i -> i_date i = Some d -> r' = [10] ++ B">>" ++ [10] ++ r).
Proof.
  intros n enc info r HS.
  exists (match info with Some i => match i_date i with Some _ => [10] ++ B">>" ++ [10] ++ r | None => [10] ++ r end | None => [10] ++ r end).
  split; [|split]; [| |intros i d -> ->; reflexivity].
  2:{ intros H. destruct info as [i|]; [|reflexivity]. rewrite (H i eq_refl). reflexivity. }
  unfold trailer_dict. apply (reads_dict []); [apply Forall_nil|]. apply entries_skip; [blanks|]. unfold trailer_pvs.
  assert (TAIL : reads_entries (match info with Some i => info_text i | None => [] end ++ B">>" ++ [10] ++ r) (match info with Some i => [(B"Info", PDict (info_pvs i))] | None => [] end)
     (match info with Some i => match i_date i with Some _ => [10] ++ B">>" ++ [10] ++ r | None => [10] ++ r end | None => [10] ++ r end)).
  { destruct info as [i|]; [|apply (entries_end []); apply Forall_nil].
    unfold info_text. rewrite <- !app_assoc. pose proof (info_reads i (B">>" ++ [10] ++ r) (HS i eq_refl)) as R.
    match goal with |- reads_entries (B"/Info <<" ++ ?x) _ _ => change (B"/Info <<" ++ x) with ([] ++ 47 :: B"Info" ++ B" <<" ++ x) end.
    eapply entries_step; [apply Forall_nil|regw|reflexivity|exact R|].
    destruct (i_date i).
    - change ([10] ++ B" >>" ++ [10] ++ B">>" ++ [10] ++ r) with ([10; 32] ++ B">>" ++ ([10] ++ B">>" ++ [10] ++ r)). apply entries_end. blanks.
    - apply (entries_end [10]). blanks. }
  set (tl := match info with Some i => info_text i | None => [] end ++ B">>" ++ [10] ++ r) in *.
  set (tv := match info with Some i => [(B"Info", PDict (info_pvs i))] | None => [] end) in *.
  match type of TAIL with reads_entries _ _ ?x => set (r' := x) in TAIL; change (reads_entries (B"/Size " ++ itoa (n + 1) ++ [10] ++ B"/Root 1 0 R" ++ [10]
    ++ match enc with Some e => B"/Encrypt " ++ itoa e ++ B" 0 R" ++ [10] ++ B"/ID [()()]" ++ [10] | None => [] end ++ tl)
    ([(B"Size", PInt (n + 1)); (B"Root", PRef 1 0)] ++ match enc with Some e => [(B"Encrypt", PRef e 0); (B"ID", PArr [PStr []; PStr []])] | None => [] end ++ tv) r') end. clearbody tl tv r'.
  change (B"/Size " ++ ?x) with (47 :: B"Size" ++ B" " ++ x). change ([?x; ?y] ++ ?z) with (x :: y :: z).
  apply line_int; [regw|eexists; reflexivity|].
  change (B"/Root 1 0 R" ++ ?x) with (47 :: B"Root" ++ B" " ++ itoa 1 ++ B" 0 R" ++ x). apply line_ref; [regw|].
  destruct enc as [e|]; [|exact TAIL]. rewrite <- !app_assoc.
  change (B"/Encrypt " ++ ?x) with (47 :: B"Encrypt" ++ B" " ++ x). change ([?x; ?y] ++ ?z) with (x :: y :: z). apply line_ref; [regw|].
  change (B"/ID [()()]" ++ [10] ++ tl) with (47 :: B"ID" ++ (B" " ++ B"[" ++ B"()()]" ++ [10] ++ tl)).
  eapply line_any; [regw|reflexivity| |exact TAIL]. apply reads_arr; [blanks|]. exists 20%nat. reflexivity.
Qed.
