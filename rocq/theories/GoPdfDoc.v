(** The objects of a document as they are written. *)
From Coq Require Import String List ZArith Lia Bool.
From Coq.Floats Require Import SpecFloat.
From Verif Require Import Base BaseProofs Output Png Crypto Float64 Ttf Subset Text ApiIds PdfSyntax PdfSyntaxProofs TextSpec TextNumbers TextDraw GoPdf GoPdfSpec GoPdfFile GoPdfPages GoPdfRun.
Open Scope Z_scope.
Open Scope list_scope.

(** ** Runs *)

Lemma inv_start : forall rnd cfg g0, g_start rnd cfg gp0 = Ok g0 -> inv cfg g0 [].
Proof.
  intros rnd cfg g0 H. unfold g_start in H. cbv zeta in H. cbn [addObj] in H.
  match type of H with bind ?e _ = _ => destruct e as [p| | |]; cbn [bind] in H; try discriminate end.
  injection H as <-. constructor; cbn.
  - exists [], [], []. split; reflexivity.
  - repeat (constructor; [split; [reflexivity|exact Logic.I]|]). constructor.
  - auto.
  - constructor.
  - left. auto.
Qed.

Lemma pages_snoc : forall t x, pages_of (t ++ [x]) = page_step (pages_of t) x.
Proof. intros t x. unfold pages_of. rewrite fold_left_app. reflexivity. Qed.
Lemma map_on_last : forall A C (m : A -> C) f h l, (forall x, m (f x) = h (m x)) -> map m (on_last f l) = on_last h (map m l).
Proof.
  intros A C m f h l H. destruct (last_cases _ l) as [->|(a & x & ->)]; [reflexivity|].
  rewrite on_last_snoc, !map_app. cbn [map]. rewrite on_last_snoc, H. reflexivity.
Qed.

Theorem inv_run : forall cfg w g0 t g, inv cfg g0 [] -> runs w g0 t g -> inv cfg g (map (made w) (pages_of t)).
Proof.
  intros cfg w g0 t g V H. induction H as [|t g c g' e R IH S]; [exact V|].
  pose proof (inv_step _ _ _ _ _ _ _ IH S) as X. rewrite pages_snoc. unfold page_step. cbn [fst snd].
  assert (Y : map (made w) (on_last (fun p => (fst p, snd p ++ [(g, c, e)])) (pages_of t)) =
              on_last (fun p => (fst p, cstep w (snd p) (g, c, e))) (map (made w) (pages_of t))).
  { apply map_on_last. intros p. unfold made. cbn [fst snd]. rewrite fold_left_app. reflexivity. }
  destruct c; rewrite ?Y; try exact X. rewrite map_app. exact X.
Qed.

(** ** Objects of pages *)

Lemma rev_ind_g : forall (P : list gobj -> Prop), P [] -> (forall l x, P l -> P (l ++ [x])) -> forall l, P l.
Proof. intros P H0 H1 l. apply rev_ind; auto. Qed.

Definition placed (os : list gobj) (q : Z * (f64 * f64) * list (Z * list gcache)) : Prop :=
  (exists o c r, 0 <= fst (fst q) /\ nth_error os (Z.to_nat (fst (fst q))) = Some o /\ o_kind o = KPage c r (snd (fst q))) /\
  Forall (fun x => exists o s, 0 <= fst x /\ nth_error os (Z.to_nat (fst x)) = Some o /\ o_kind o = KContent s (snd x)) (snd q).

Lemma placed_app : forall os os' q, placed os q -> placed (os ++ os') q.
Proof.
  intros os os' q ((o & c & r & P & N & K) & F). split.
  - exists o, c, r. split; [exact P|]. split; [|exact K]. rewrite nth_error_app1; [exact N|]. apply nth_error_Some. congruence.
  - eapply Forall_impl; [|exact F]. intros x (o1 & s & P1 & N1 & K1). exists o1, s. split; [exact P1|]. split; [|exact K1].
    rewrite nth_error_app1; [exact N1|]. apply nth_error_Some. congruence.
Qed.

Lemma scan_placed : forall os, Forall (placed os) (scan os).
Proof.
  apply rev_ind_g; [constructor|]. intros os x IH.
  assert (IH' : Forall (placed (os ++ [x])) (scan os)). { eapply Forall_impl; [|exact IH]. intros q. apply placed_app. }
  assert (Nx : nth_error (os ++ [x]) (Z.to_nat (Z.of_nat (List.length os))) = Some x). { rewrite Nat2Z.id, nth_error_app2, Nat.sub_diag by lia. reflexivity. }
  destruct (o_kind x) eqn:E;
    try (rewrite scan_app by (unfold sig; cbn [forallb]; rewrite E; reflexivity); exact IH').
  - rewrite (scan_page _ _ _ _ _ E). apply Forall_app. split; [exact IH'|]. constructor; [|constructor]. split; [|constructor].
    cbn [fst snd]. exists x, contents, resources. split; [lia|]. split; [exact Nx|exact E].
  - rewrite (scan_content _ _ _ _ E). destruct (last_cases _ (scan os)) as [->|(a & q & Ea)]; [constructor|]. rewrite Ea in *. rewrite on_last_snoc.
    apply Forall_app in IH'. destruct IH' as (A1 & A2). apply Forall_app. split; [exact A1|]. inversion A2 as [|? ? (P1 & P2) _]; subst.
    constructor; [|constructor]. split; cbn [fst snd]; [exact P1|]. apply Forall_app. split; [exact P2|]. constructor; [|constructor].
    cbn [fst snd]. exists x, stream. split; [lia|]. split; [exact Nx|exact E].
Qed.

Lemma scan_nodup : forall os, NoDup (map (fun q => fst (fst q)) (scan os)).
Proof.
  apply rev_ind_g; [constructor|]. intros os x IH.
  destruct (o_kind x) eqn:E;
    try (rewrite scan_app by (unfold sig; cbn [forallb]; rewrite E; reflexivity); exact IH).
  - rewrite (scan_page _ _ _ _ _ E), map_app. cbn [map fst]. apply NoDup_Add with (a := Z.of_nat (List.length os)) (l := map (fun q => fst (fst q)) (scan os)).
    + rewrite <- (app_nil_r (map _ (scan os))) at 1. apply Add_app.
    + split; [exact IH|]. intros H. apply in_map_iff in H. destruct H as (q & Eq & Hq). pose proof (scan_placed os) as P. rewrite Forall_forall in P.
      destruct (P q Hq) as ((o & c & r & P0 & N & _) & _). assert (Z.to_nat (fst (fst q)) < List.length os)%nat by (apply nth_error_Some; congruence). lia.
  - rewrite (scan_content _ _ _ _ E). destruct (last_cases _ (scan os)) as [->|(a & q & Ea)]; [constructor|]. rewrite Ea in *. rewrite on_last_snoc.
    rewrite map_app in *. exact IH.
Qed.

Lemma refs_at_in : forall ps i opt cs, NoDup (map (fun q => fst (fst q)) ps) -> In (i, opt, cs) ps -> refs_at ps i = flat_map (fun c => g_ref (fst c)) cs.
Proof.
  induction ps as [|p ps IH]; intros i opt cs N H; [contradiction|]. cbn [map] in N. inversion N as [|? ? N1 N2]; subst. unfold refs_at. cbn [flat_map].
  destruct H as [->|H].
  - cbn [fst snd]. rewrite Z.eqb_refl. fold (refs_at ps i). assert (R : refs_at ps i = []); [|rewrite R, app_nil_r; reflexivity].
    cbn [fst] in N1. clear - N1. induction ps as [|p ps IH]; [reflexivity|]. unfold refs_at. cbn [flat_map map] in *.
    destruct (fst (fst p) =? i) eqn:E; [apply Z.eqb_eq in E; destruct N1; left; exact E|]. apply IH. intros H. apply N1. right. exact H.
  - destruct (fst (fst p) =? i) eqn:E; [apply Z.eqb_eq in E; destruct N1; apply in_map_iff; exists (i, opt, cs); auto|]. eapply IH; eauto.
Qed.

(** ** The prepared document *)

(** the objects before they are linked *)
Definition with_enc (g : gp) : list gobj :=
  g_objs g ++ (if cfg_use (g_cfg g) then match g_prot g with Some p => [new_obj (KEncrypt p)] | None => [] end else []).

Lemma prepared : forall cfg g pl gp, inv cfg g pl -> g_prepare g = Ok gp ->
  gp = g_set_enc (g_set_objs g (mapi (linked 1 (scan (with_enc g))) 0 (with_enc g))) (enc_of (with_enc g) 0 (g_enc g)) /\ scan (with_enc g) = scan (g_objs g) /\
  (cfg_use (g_cfg g) = true -> exists p, g_prot g = Some p).
Proof.
  intros cfg g pl gp V H. unfold g_prepare in H.
  match type of H with bind ?e _ = _ => destruct e as [g1| | |] eqn:E; cbn [bind] in H; try discriminate end.
  assert (G1 : g1 = g_set_objs g (with_enc g) /\ (cfg_use (g_cfg g) = true -> exists p, g_prot g = Some p) /\ scan (with_enc g) = scan (g_objs g)).
  { unfold with_enc. destruct (cfg_use (g_cfg g)).
    - destruct (g_prot g) as [p|] eqn:Ep; [|discriminate]. injection E as <-. split; [reflexivity|]. split; [eauto|]. apply scan_app. reflexivity.
    - injection E as <-. rewrite app_nil_r. split; [destruct g; reflexivity|]. split; [discriminate|reflexivity]. }
  destruct G1 as (-> & G2 & G3). split; [|split; [exact G3|exact G2]].
  destruct (iv_cfg _ _ _ V) as (_ & P & _). cbn [g_pages g_set_objs] in H. rewrite P in H. cbn [Z.eqb] in H.
  destruct (kind_at _ 1) as [k| | |]; cbn [bind] in H; try discriminate. destruct k; try discriminate. cbn [g_objs g_set_objs] in H.
  apply (prep_ok 1 (with_enc g) [] (with_enc g) [] 0 (-1) (g_enc g) g gp).
  - reflexivity.
  - reflexivity.
  - left. auto.
  - rewrite <- H. f_equal. assert (X : mapi (linked 1 []) 0 (with_enc g) = with_enc g).
    { apply nth_ext. intros m. rewrite nth_mapi. destruct (nth_error (with_enc g) m) as [o|]; [|reflexivity]. cbn [option_map]. f_equal.
      unfold linked. destruct o as [bf k]. cbn [o_buf o_kind]. f_equal. destruct k; try reflexivity.
      - unfold kid_refs. cbn [List.length flat_map]. rewrite app_nil_r, Z.add_0_r. destruct (_ =? _); reflexivity.
      - unfold refs_at. cbn [flat_map]. rewrite app_nil_r. reflexivity. }
    rewrite X. destruct g. reflexivity.
Qed.
