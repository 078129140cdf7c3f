(** What the trailer of a saved file says, and what becomes of SetInfo. *)
From Coq Require Import String List ZArith Lia Bool.
From Coq.Floats Require Import SpecFloat.
From Verif Require Import Float64 TextSpec PdfSyntax GoPdf GoPdfSpec GoPdfDocSpec GoPdfFile GoPdfTree GoPdfMain GoPdfCases GoPdfOpenSpec GoPdfOpenCases GoPdfReadyCases.
From Verif Require Import Base BaseProofs Utf8 Output OutputSpec OutputProofs PdfData PagesProofs Crawl Parse Api ApiIds ApiFresh ApiCases SaveLock LockTrailerSpec LockTrailer LockOpened PdfSyntax.
Open Scope Z_scope.
Open Scope list_scope.

Theorem trailer_keys : forall w fuel ch cs s log s' F, history w fuel cs new_pdft = Ok (s, log) -> fair (ch_ord ch) -> saveTo w fuel ch s = Ok (s', Ok F) -> blen F < 10 ^ 10 ->
  exists d, (forall d', trailer_entries F d' <-> d' = d) /\ (map fst d = [B"Size"; B"Root"] \/ map fst d = [B"Size"; B"Root"; B"Encrypt"; B"ID"]).
Proof.
  intros w fuel ch cs s log s' F H Fair Sv HF. destruct (save_shape _ _ _ _ _ _ Sv Fair (reached_names _ _ _ _ _ H)) as (_ & _ & os & last & fresh & EF & _ & _ & Lm & _).
  pose proof (maxID_nonneg (objs (d_pdf (s_doc s)))) as P. rewrite toStream_write in EF. subst F. eexists. split; [apply entries_only, write_entries; [|exact HF]|].
  - unfold saved_last. destruct (option_map _ _); lia.
  - unfold trailer_items. destruct (saved_enc _ _); [right|left]; reflexivity.
Qed.

Lemma some_simple : simple_info some_info.
Proof.
  assert (T : forall s, forallb (fun c => (0 <=? c) && (c <? 65536)) (runes s) = true -> in_plane s) by (intros s H; apply Forall_forall; intros c Hc; rewrite forallb_forall in H; apply H in Hc; lia).
  repeat (split; [apply T; vm_compute; reflexivity|]). cbn [some_info i_date]. apply Forall_forall. intros c Hc.
  assert (X : forallb (fun c => negb (c =? 13) && negb (c =? 40) && negb (c =? 41) && negb (c =? 92)) (B"20200131235959+07'00'") = true) by reflexivity.
  rewrite forallb_forall in X. apply X in Hc. lia.
Qed.
Lemma info86 : info_of (s_trace saved86) = Some some_info. Proof. vm_compute. reflexivity. Qed.
Lemma log86_ok : history world_x 2 (KOpen (s_file saved86) :: calls86) new_pdft = Ok (state86, combine (KOpen (s_file saved86) :: calls86) [None; None; None; None]).
Proof. vm_compute. reflexivity. Qed.
Lemma out86_ok : saveTo world_x 2 (plain_choices false) state86 = Ok (fst out86, Ok (snd out86)). Proof. vm_compute. reflexivity. Qed.
Lemma len86 : (blen (snd out86) <? 10 ^ 10) = true. Proof. vm_compute. reflexivity. Qed.

(** Title, author and so on are in the document, and not in the saved file. *)
Theorem info_lost : exists gw cfg t F i w fuel ch cs s s' F' log d, document gw [] cfg t F /\ info_of t = Some i /\ i_title i = B"T" /\ info_is F (Some i) /\
  history w fuel (KOpen F :: cs) new_pdft = Ok (s, log) /\ Forall (fun x => snd x = None) log /\ saveTo w fuel ch s = Ok (s', Ok F') /\ trailer_entries F' d /\ lookup (B"Info") d = None.
Proof.
  destruct over_case as (D & _ & Hs & _). pose proof len86 as L. apply Z.ltb_lt in L.
  destruct (trailer_keys _ _ _ _ _ _ _ _ log86_ok fair_plain out86_ok L) as (d & T0 & K). pose proof (proj2 (T0 d) eq_refl) as T.
  exists gw_x, page_cfg, (s_trace saved86), (s_file saved86), some_info, world_x, 2%nat, (plain_choices false), calls86, state86, (fst out86), (snd out86). eexists. exists d.
  split; [exact D|]. split; [exact info86|]. split; [reflexivity|]. split.
  { rewrite <- info86. eapply doc_info; [exact D|exact Hs|]. intros i E. rewrite info86 in E. assert (some_info = i) as <- by congruence. exact some_simple. }
  split; [exact log86_ok|]. split; [repeat constructor|]. split; [exact out86_ok|]. split; [exact T|].
  clear -K. destruct K as [K|K]; destruct d as [|(k1, v1) [|(k2, v2) d]]; try discriminate K; cbn [map fst] in K; injection K as -> -> K.
  - destruct d; [reflexivity|discriminate K].
  - destruct d as [|(k3, v3) [|(k4, v4) [|x d]]]; try discriminate K; cbn [map fst] in K; injection K as -> ->. reflexivity.
Qed.
