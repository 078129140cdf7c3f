(** What the methods of the definition file return. *)
From Coq Require Import String List ZArith Lia Bool.
From Coq.Floats Require Import SpecFloat.
From Verif Require Import Base BaseProofs Float64 Ttf Subset FontMaker FontMakerSpec FontMakerGo FontMakerText.
Open Scope Z_scope.
Open Scope list_scope.

Definition no_func (s : stmt) : bool := match s with SFunc _ _ => false | _ => true end.
Definition skips (m : bytes) (s : stmt) : bool := match s with SFunc _ x => negb (beqb x m) | _ => true end.
Lemma in_func_stop : forall a t x l, forallb no_func a = true -> in_func (a ++ SFunc t x :: l) = a.
Proof. induction a as [|s a IH]; intros t x l H; [reflexivity|]. cbn [forallb] in H. apply andb_true_iff in H as (H1 & H2). destruct s; try discriminate; cbn [app in_func]; rewrite IH by exact H2; reflexivity. Qed.
Lemma in_func_end : forall a, forallb no_func a = true -> in_func a = a.
Proof. induction a as [|s a IH]; intros H; [reflexivity|]. cbn [forallb] in H. apply andb_true_iff in H as (H1 & H2). destruct s; try discriminate; cbn [in_func]; rewrite IH by exact H2; reflexivity. Qed.
Lemma body_skip : forall a ty m l, forallb (skips m) a = true -> body (a ++ l) ty m = body l ty m.
Proof.
  induction a as [|s a IH]; intros ty m l H; [reflexivity|]. cbn [forallb] in H. apply andb_true_iff in H as (H1 & H2). specialize (IH ty m l H2). destruct s; cbn [app body]; try exact IH.
  cbn [skips] in H1. apply negb_true_iff in H1. rewrite H1, andb_false_r. exact IH.
Qed.
Lemma body_at : forall ty m l, body (SFunc ty m :: l) ty m = in_func l.
Proof. intros. cbn [body]. rewrite !(proj2 (beqb_eq _ _) eq_refl). reflexivity. Qed.
Lemma cw_no_func : forall ws c, forallb no_func (cw_stmts c ws) = true.
Proof. induction ws as [|w ws IH]; intros c; [reflexivity|]. cbn [cw_stmts forallb no_func andb]. apply IH. Qed.
Lemma field_no_func : forall e i diff, forallb no_func (field_stmts e i diff) = true.
Proof. intros e i diff. unfold field_stmts. rewrite forallb_app. destruct diff; reflexivity. Qed.
Lemma no_func_skips : forall m a, forallb no_func a = true -> forallb (skips m) a = true.
Proof. intros m a. rewrite !forallb_forall. intros H s Hs. specialize (H s Hs). destruct s; try reflexivity; discriminate. Qed.

Definition init_stmts (encode : bytes) (i : info) (diff : bytes) : list stmt :=
  [SOther] ++ cw_stmts 0 (i_widths i) ++ field_stmts encode i diff ++ item_stmts i.
Lemma init_is : forall ty encode i diff, init (all_stmts ty encode i diff) ty = init_stmts encode i diff.
Proof.
  intros ty encode i diff. unfold init, all_stmts. 
  replace (head_stmts ty) with ((repeat SOther 4 ++ [SType ty] ++ repeat SOther 10) ++ [SFunc ty (B"Init"); SOther]) by reflexivity.
  rewrite <- app_assoc, body_skip by reflexivity.
  match goal with |- body ([SFunc ty (B"Init"); SOther] ++ ?x) _ _ = _ => change ([SFunc ty (B"Init"); SOther] ++ x) with (SFunc ty (B"Init") :: ([SOther] ++ x)) end.
  rewrite body_at.
  unfold tail_stmts, get_stmts. 
  match goal with |- in_func ([SOther] ++ ?a ++ ?c ++ ?d ++ (([SFunc ?t ?x; ?u; ?v] ++ ?r) ++ ?e)) = _ =>
    replace ([SOther] ++ a ++ c ++ d ++ (([SFunc t x; u; v] ++ r) ++ e)) with (([SOther] ++ a ++ c ++ d) ++ SFunc t x :: ([u; v] ++ r ++ e)) by (rewrite <- !app_assoc; reflexivity) end.
  rewrite in_func_stop; [reflexivity|]. rewrite !forallb_app, cw_no_func, field_no_func. reflexivity.
Qed.

Definition pre_stmts (ty encode : bytes) (i : info) (diff : bytes) : list stmt := head_stmts ty ++ cw_stmts 0 (i_widths i) ++ field_stmts encode i diff ++ item_stmts i.
Lemma pre_skips : forall ty encode i diff m, beqb (B"Init") m = false -> forallb (skips m) (pre_stmts ty encode i diff) = true.
Proof.
  intros ty encode i diff m H. unfold pre_stmts. rewrite !forallb_app, !(no_func_skips m _ (cw_no_func _ _)), !(no_func_skips m _ (field_no_func _ _ _)).
  cbn [head_stmts repeat app forallb skips andb]. rewrite H. reflexivity.
Qed.
Lemma all_split : forall ty encode i diff, all_stmts ty encode i diff = pre_stmts ty encode i diff ++ tail_stmts ty ++ [SOther].
Proof. intros. unfold all_stmts, pre_stmts. rewrite <- !app_assoc. reflexivity. Qed.
Lemma method_is : forall ty encode i diff m a e r, tail_stmts ty ++ [SOther] = a ++ get_stmts ty m e ++ r -> beqb (B"Init") m = false -> forallb (skips m) a = true ->
  (exists t x r', r = SFunc t x :: r') \/ forallb no_func r = true -> method (all_stmts ty encode i diff) ty m = Some e.
Proof.
  intros ty encode i diff m a e r E N K R. unfold method. rewrite all_split, E, body_skip by (apply pre_skips; exact N). rewrite body_skip by exact K.
  unfold get_stmts. change ([SFunc ty m; SReturn e; SOther] ++ r) with (SFunc ty m :: ([SReturn e; SOther] ++ r)). rewrite body_at. destruct R as [(t & x & r' & ->)|R].
  - rewrite in_func_stop by reflexivity. reflexivity.
  - rewrite in_func_end by exact R. reflexivity.
Qed.
Ltac find_method n := let ty := fresh in intros ty ? ? ?;
  eapply (method_is ty _ _ _ _ (firstn (3 * n) (tail_stmts ty)) _ (skipn (3 * n + 3) (tail_stmts ty ++ [SOther]))); [reflexivity|reflexivity|reflexivity|first [right; reflexivity|left; eexists _, _, _; reflexivity]].
Lemma get_type_is : forall ty e i d, method (all_stmts ty e i d) ty (B"GetType") = Some (ret_me (B"fonttype")). Proof. find_method 0%nat. Qed.
Lemma get_name_is : forall ty e i d, method (all_stmts ty e i d) ty (B"GetName") = Some (ret_me (B"name")). Proof. find_method 1%nat. Qed.
Lemma get_desc_is : forall ty e i d, method (all_stmts ty e i d) ty (B"GetDesc") = Some (ret_me (B"desc")). Proof. find_method 2%nat. Qed.
Lemma get_up_is : forall ty e i d, method (all_stmts ty e i d) ty (B"GetUp") = Some (ret_me (B"up")). Proof. find_method 3%nat. Qed.
Lemma get_ut_is : forall ty e i d, method (all_stmts ty e i d) ty (B"GetUt") = Some (ret_me (B"ut")). Proof. find_method 4%nat. Qed.
Lemma get_cw_is : forall ty e i d, method (all_stmts ty e i d) ty (B"GetCw") = Some (ret_me (B"cw")). Proof. find_method 5%nat. Qed.
Lemma get_enc_is : forall ty e i d, method (all_stmts ty e i d) ty (B"GetEnc") = Some (ret_me (B"enc")). Proof. find_method 6%nat. Qed.
Lemma get_diff_is : forall ty e i d, method (all_stmts ty e i d) ty (B"GetDiff") = Some (ret_me (B"diff")). Proof. find_method 7%nat. Qed.
Lemma get_size_is : forall ty e i d, method (all_stmts ty e i d) ty (B"GetOriginalsize") = Some [TInt 98764]. Proof. find_method 8%nat. Qed.

(** ** Values *)
Lemma last_app : forall A p a c (d : A), last_of p (a ++ c) d = last_of p c (last_of p a d).
Proof. intros. unfold last_of. apply fold_left_app. Qed.
Lemma last_skip : forall A p a (d : A), (forall s, In s a -> p s = None) -> last_of p a d = d.
Proof. intros A p a. induction a as [|s a IH]; intros d H; [reflexivity|]. unfold last_of in *. cbn [fold_left]. rewrite (H s (or_introl eq_refl)). apply IH. intros x Hx. apply H. right. exact Hx. Qed.
Lemma cw_in : forall ws c s, In s (cw_stmts c ws) -> exists x w, s = SWidth x w.
Proof. induction ws as [|w ws IH]; intros c s H; [destruct H|]. destruct H as [<-|H]; eauto. Qed.
Lemma field_me : forall f, field_of (ret_me f) = Some f. Proof. reflexivity. Qed.
Lemma signed_me : forall f, signed (ret_me f) = None. Proof. reflexivity. Qed.
Ltac value M := unfold str_result, int_result; rewrite M, init_is; unfold init_stmts; rewrite ?signed_me, field_me; cbn [option_map]; f_equal;
  rewrite !last_app; rewrite (last_skip _ _ (cw_stmts _ _)) by (intros s Hs; destruct (cw_in _ _ _ Hs) as (? & ? & ->); reflexivity).
Lemma name_value : forall ty e i d, str_result (all_stmts ty e i d) ty (B"GetName") = Some (i_name i).
Proof. intros. value get_name_is. destruct d; reflexivity. Qed.
Lemma type_value : forall ty e i d, str_result (all_stmts ty e i d) ty (B"GetType") = Some (B"TrueType").
Proof. intros. value get_type_is. destruct d; reflexivity. Qed.
Lemma enc_value : forall ty e i d, str_result (all_stmts ty e i d) ty (B"GetEnc") = Some e.
Proof. intros. value get_enc_is. destruct d; reflexivity. Qed.
Lemma diff_value : forall ty e i d, str_result (all_stmts ty e i d) ty (B"GetDiff") = Some d.
Proof. intros. value get_diff_is. destruct d; reflexivity. Qed.
Lemma up_value : forall ty e i d, int_result (all_stmts ty e i d) ty (B"GetUp") = Some (i_up i).
Proof. intros. value get_up_is. destruct d; reflexivity. Qed.
Lemma ut_value : forall ty e i d, int_result (all_stmts ty e i d) ty (B"GetUt") = Some (i_ut i).
Proof. intros. value get_ut_is. destruct d; reflexivity. Qed.
Lemma size_value : forall ty e i d, int_result (all_stmts ty e i d) ty (B"GetOriginalsize") = Some 98764.
Proof. intros. unfold int_result. rewrite get_size_is. reflexivity. Qed.
Lemma item_value : forall ty e i d k, 0 <= k < 8 -> item_result (all_stmts ty e i d) ty k = Some (nth (Z.to_nat k)
  [(B"Ascent", itoa (i_asc i)); (B"Descent", itoa (i_desc i)); (B"CapHeight", itoa (i_cap i)); (B"Flags", itoa (desc_flags i)); (B"FontBBox", box_text i);
   (B"ItalicAngle", itoa (i_italic i)); (B"StemV", itoa (if i_bold i then 120 else 70)); (B"MissingWidth", itoa (i_missing i))] ([], [])).
Proof.
  intros ty e i d k H. unfold item_result. rewrite get_desc_is, init_is. unfold init_stmts. rewrite field_me.
  change (beqb (B"desc") (B"desc")) with true. cbv iota. f_equal.
  rewrite !last_app. rewrite (last_skip _ _ (cw_stmts _ _)) by (intros s Hs; destruct (cw_in _ _ _ Hs) as (? & ? & ->); reflexivity).
  rewrite (last_skip _ _ (field_stmts _ _ _)).
  - assert (K : k = 0 \/ k = 1 \/ k = 2 \/ k = 3 \/ k = 4 \/ k = 5 \/ k = 6 \/ k = 7) by lia.
    repeat (destruct K as [->|K]; [reflexivity|]). subst k. reflexivity.
  - intros s Hs. unfold field_stmts in Hs. apply in_app_or in Hs as [Hs|Hs]; [|destruct d; [destruct Hs|]]; cbn in Hs; repeat (destruct Hs as [<-|Hs]; [reflexivity|]); destruct Hs.
Qed.
Lemma cw_last : forall c ws c0 d, last_of (fun s => match s with SWidth x w => if x =? c then Some w else None | _ => None end) (cw_stmts c0 ws) d =
  if (c0 <=? c) && (c <? c0 + Z.of_nat (List.length ws)) then nth (Z.to_nat (c - c0)) ws 0 else d.
Proof.
  intros c. induction ws as [|w ws IH]; intros c0 d.
  - cbn [cw_stmts List.length]. destruct ((c0 <=? c) && (c <? c0 + Z.of_nat 0)) eqn:E; [lia|reflexivity].
  - cbn [cw_stmts]. unfold last_of in *. cbn [fold_left]. rewrite IH. cbn [List.length]. destruct (Z.eqb_spec c0 c).
    + subst c0. destruct (Z.leb_spec (c + 1) c); [lia|]. cbn [andb]. destruct (Z.leb_spec c c), (Z.ltb_spec c (c + Z.of_nat (Datatypes.S (List.length ws)))); try lia.
      replace (c - c) with 0 by lia. reflexivity.
    + destruct (Z.leb_spec (c0 + 1) c), (Z.ltb_spec c (c0 + 1 + Z.of_nat (List.length ws))), (Z.leb_spec c0 c), (Z.ltb_spec c (c0 + Z.of_nat (Datatypes.S (List.length ws)))); try lia; try reflexivity.
      cbn [andb]. replace (Z.to_nat (c - c0)) with (Datatypes.S (Z.to_nat (c - (c0 + 1)))) by lia. reflexivity.
Qed.
Lemma width_value : forall ty e i d c, 0 <= c < Z.of_nat (List.length (i_widths i)) -> width_result (all_stmts ty e i d) ty c = Some (nth (Z.to_nat c) (i_widths i) 0).
Proof.
  intros ty e i d c H. unfold width_result. rewrite get_cw_is, init_is. unfold init_stmts. rewrite field_me.
  change (beqb (B"cw") (B"cw")) with true. cbv iota. f_equal.
  rewrite !last_app. rewrite (last_skip _ _ (item_stmts i)).
  - rewrite (last_skip _ _ (field_stmts _ _ _)).
    + rewrite cw_last. replace (c - 0) with c by lia. destruct ((0 <=? c) && (c <? 0 + Z.of_nat (List.length (i_widths i)))) eqn:E; [reflexivity|lia].
    + intros s Hs. unfold field_stmts in Hs. apply in_app_or in Hs as [Hs|Hs]; [|destruct d; [destruct Hs|]]; cbn in Hs; repeat (destruct Hs as [<-|Hs]; [reflexivity|]); destruct Hs.
  - intros s Hs. unfold item_stmts in Hs. cbn in Hs. repeat (destruct Hs as [<-|Hs]; [reflexivity|]); destruct Hs.
Qed.
