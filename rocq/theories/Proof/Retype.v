(** The functions of Column.v do not look at the type counts: they commute with every change of
    the counts which maps new counts to new counts. *)
From Verif.Model Require Import Table.
Local Open Scope Z_scope.

Section retype.
  Context {A U V : Type} `{EqDecision U, EqDecision V} (tyU : A → U) (tyV : A → V).
  Context (f : list (U * Z) → list (V * Z)) (Hf : ∀ xs, f (type_counts tyU xs) = type_counts tyV xs).
  Definition rt (p : page A U) : page A V := MkPage (pdata p) (f (ptypes p)).

  Lemma rt_new xs : rt (new_page tyU xs) = new_page tyV xs.
  Proof using Hf. unfold rt, new_page. cbn. by rewrite Hf. Qed.
  Lemma rt_news xss : map (new_page tyV) xss = map rt (map (new_page tyU) xss).
  Proof using Hf. rewrite map_map. apply map_ext. intros. by rewrite rt_new. Qed.
  Lemma plen_rt p : plen (rt p) = plen p.
  Proof using Type. done. Qed.
  Lemma col_len_rt c : col_len (map rt c) = col_len c.
  Proof using Type.
    unfold col_len. generalize 0. induction c as [|p c IH]; intros z; [done|]. cbn. rewrite plen_rt. apply IH.
  Qed.
  Lemma concat_rt c : concat (map pdata (map rt c)) = concat (map pdata c).
  Proof using Type. by rewrite map_map. Qed.

  Lemma find_page_rt key c : ∀ off before,
    find_page key off (map rt before) (map rt c) =
    (λ x : column A U * Z * page A U * column A U, let '(b, s, p, a) := x in (map rt b, s, rt p, map rt a)) <$> find_page key off before c.
  Proof using Type.
    induction c as [|p c IH]; intros off before; [done|]. cbn [map find_page]. rewrite plen_rt.
    destruct ((off <=? key) && (key <? off + plen p)); [done|].
    rewrite <- (IH (off + plen p) (before ++ [p])). by rewrite map_app.
  Qed.
  Lemma find_page_rt0 key c : find_page key 0 [] (map rt c) =
    (λ x : column A U * Z * page A U * column A U, let '(b, s, p, a) := x in (map rt b, s, rt p, map rt a)) <$> find_page key 0 [] c.
  Proof using Type. apply (find_page_rt key c 0 []). Qed.
  Lemma col_extend_rt ps c vs : col_extend tyV ps (map rt c) vs = map rt (col_extend tyU ps c vs).
  Proof using Hf. unfold col_extend. by rewrite map_app, rt_news. Qed.

  Lemma setitem_extend_rt ps c k vs : setitem_extend tyV ps (map rt c) k vs = map rt (setitem_extend tyU ps c k vs).
  Proof using Hf.
    unfold setitem_extend. rewrite find_page_rt0. destruct (find_page k 0 [] c) as [[[[b s] p] a]|]; cbn [fmap option_fmap option_map].
    - by rewrite <- col_extend_rt.
    - rewrite map_app. cbn. by rewrite rt_new.
  Qed.
  Lemma setitem_prextend_rt ps c k vs : setitem_prextend tyV ps (map rt c) k vs = map rt (setitem_prextend tyU ps c k vs).
  Proof using Hf.
    unfold setitem_prextend. rewrite col_len_rt. destruct (k =? col_len c); [apply (col_extend_rt ps [])|].
    set (k' := if k <? 0 then _ else _). rewrite find_page_rt0.
    destruct (find_page k' 0 [] c) as [[[[b s] p] a]|]; cbn [fmap option_fmap option_map]; [|done].
    rewrite map_app. f_equal. apply (col_extend_rt ps []).
  Qed.
  Lemma insert_loop_rt ks ke c : ∀ off uh hd tl ut,
    insert_loop ks ke off (map rt c) (map rt uh, hd, tl, map rt ut) =
    (let '(uh, hd, tl, ut) := insert_loop ks ke off c (uh, hd, tl, ut) in (map rt uh, hd, tl, map rt ut)).
  Proof using Type.
    induction c as [|p c IH]; intros off uh hd tl ut; [done|]. cbn [map insert_loop]. rewrite plen_rt.
    rewrite <- IH. f_equal. repeat f_equal; case_match; try done; by rewrite map_app.
  Qed.
  Lemma setitem_insert_rt ps c k vs : setitem_insert tyV ps (map rt c) k vs = map rt (setitem_insert tyU ps c k vs).
  Proof using Hf.
    unfold setitem_insert. rewrite col_len_rt. destruct (slice_indices k (col_len c)) as [[ks ke] st].
    set (ke' := if ke <? ks then ks else ke). pose proof (insert_loop_rt ks ke' c 0 [] [] [] []) as E. cbn [map] in E.
    rewrite E. clear E. destruct (insert_loop _ _ 0 c _) as [[[uh hd] tl] ut].
    by rewrite !map_app, rt_news.
  Qed.

  Definition rt4 (x : column A U * column A U * column A U * option Z) : column A V * column A V * column A V * option Z :=
    let '(h, c, t, s) := x in (map rt h, map rt c, map rt t, s).
  Lemma nil_rt (c : column A U) : bool_decide ((map rt c : column A V) = []) = bool_decide (c = []).
  Proof using Type. by destruct c. Qed.
  Lemma update_loop_rt ks ke c : ∀ off x, update_loop ks ke off (map rt c) (rt4 x) = rt4 (update_loop ks ke off c x).
  Proof using Type.
    induction c as [|p c IH]; intros off x; [done|]. destruct x as [[[h ch] t] s]. cbn [map update_loop rt4].
    rewrite plen_rt, <- IH. f_equal. rewrite nil_rt.
    repeat match goal with |- context [if ?b then _ else _] => destruct b end; cbn [rt4]; by rewrite map_app.
  Qed.
  Lemma del_loop_rt ks ke c : ∀ off x, del_loop ks ke off (map rt c) (rt4 x) = rt4 (del_loop ks ke off c x).
  Proof using Type.
    induction c as [|p c IH]; intros off x; [done|]. destruct x as [[[h ch] t] s]. cbn [map del_loop rt4].
    rewrite plen_rt, <- IH. f_equal. rewrite nil_rt.
    repeat match goal with |- context [if ?b then _ else _] => destruct b end; cbn [rt4]; by rewrite map_app.
  Qed.
  Lemma setitem_update_rt castV ps c k vs :
    setitem_update tyV castV ps (map rt c) k vs = res_map (map rt) (setitem_update tyU (λ l, castV (map rt l)) ps c k vs).
  Proof using Hf.
    unfold setitem_update. rewrite col_len_rt. destruct (sl_stepv k =? 0); [done|].
    destruct (slice_indices k (col_len c)) as [[ks ke] st]. destruct (_ <? _); [done|].
    pose proof (update_loop_rt ks ke c 0 ([], [], [], None)) as E. cbn [rt4 map] in E. rewrite E. clear E.
    destruct (update_loop ks ke 0 c _) as [[[h ch] t] s]. cbn [rt4].
    destruct ch as [|p ch]; [done|]. cbv iota. change (map rt (p :: ch)) with (rt p :: map rt ch). cbv iota.
    change (rt p :: map rt ch) with (map rt (p :: ch)). rewrite concat_rt.
    destruct (update_assign _ _ _ _); cbn [res_map]; [|done]. by rewrite !map_app, rt_news.
  Qed.
  Lemma col_setslice_rt castV ps c k vs :
    col_setslice tyV castV ps (map rt c) k vs = res_map (map rt) (col_setslice tyU (λ l, castV (map rt l)) ps c k vs).
  Proof using Hf.
    unfold col_setslice. set (simple := match sl_step k with None => true | Some k0 => k0 =? 1 end).
    destruct (sl_start k), (sl_stop k), simple; cbn [res_map]; try by apply setitem_update_rt.
    - by rewrite setitem_insert_rt.
    - by rewrite setitem_extend_rt.
    - by rewrite setitem_prextend_rt.
    - f_equal. apply (col_extend_rt ps []).
  Qed.
  Lemma col_delitem_rt c k : col_delitem (map rt c) k = res_map (map rt) (col_delitem c k).
  Proof using Type.
    unfold col_delitem. generalize 0. induction c as [|p c IH]; intros off; [done|]. cbn [map del_by_int_loop].
    rewrite plen_rt. destruct (_ && _).
    - change (pdata (rt p)) with (pdata p). destruct (np_delete _ _); cbn [res_bind res_map]; [|done].
      rewrite IH. by destruct (del_by_int_loop _ _ _).
    - rewrite IH. by destruct (del_by_int_loop _ _ _).
  Qed.
  Lemma col_delslice_rt ps c k : col_delslice tyV ps (map rt c) k = res_map (map rt) (col_delslice tyU ps c k).
  Proof using Hf.
    unfold col_delslice. rewrite col_len_rt. destruct (sl_stepv k =? 0); [done|].
    destruct (slice_indices k (col_len c)) as [[ks ke] st].
    pose proof (del_loop_rt ks ke c 0 ([], [], [], None)) as E. cbn [rt4 map] in E. rewrite E. clear E.
    destruct (del_loop ks ke 0 c _) as [[[h ch] t] s]. cbn [rt4].
    destruct ch as [|p ch]; [done|]. cbv iota. change (map rt (p :: ch)) with (rt p :: map rt ch). cbv iota.
    change (rt p :: map rt ch) with (map rt (p :: ch)). rewrite concat_rt.
    match goal with |- res_map _ ?x = res_map _ (res_map _ ?y) => change x with y; destruct y end; cbn [res_map]; [|done].
    by rewrite !map_app, rt_news.
  Qed.
  Lemma col_remove_all_rt eqb c vs : col_remove_all eqb (map rt c) vs = map rt (col_remove_all eqb c vs).
  Proof using Type.
    unfold col_remove_all. rewrite !map_map. apply map_ext. intros p. unfold remove_all_page.
    change (pdata (rt p)) with (pdata p). by destruct (existsb id _).
  Qed.
  Lemma col_imul_rt c n : col_imul (map rt c) n = res_map (map rt) (col_imul c n).
  Proof using Type.
    unfold col_imul. destruct (0 <? n); [|done]. cbn [res_map]. f_equal.
    induction (Z.to_nat n) as [|k IH]; [done|]. cbn. by rewrite map_app, IH.
  Qed.

  Definition rti (i : page A U + list A) : page A V + list A := match i with inl p => inl (rt p) | inr l => inr l end.
  Lemma getitems_loop_rt rv a b r c : ∀ off,
    getitems_loop rv a b r off (map rt c) = res_map (map rti) (getitems_loop rv a b r off c).
  Proof using Type.
    induction c as [|p c IH]; intros off; [done|]. cbn [map getitems_loop]. rewrite plen_rt, IH.
    destruct (if rv then _ else _); [done|]. destruct (if rv then _ else _); [done|].
    destruct (intercept _ _) as [ro|]; [|done]. cbn [res_bind]. destruct (rlen ro =? 0); [done|].
    destruct (rlen ro =? plen p); by destruct (getitems_loop _ _ _ _ _ c).
  Qed.
  Lemma sub_column_rt ps c s : sub_column tyV ps (map rt c) s = res_map (map rt) (sub_column tyU ps c s).
  Proof using Hf.
    unfold sub_column, getitems. rewrite col_len_rt. destruct (sl_stepv s =? 0); [done|].
    destruct (slice_indices s (col_len c)) as [[a b] st]. rewrite getitems_loop_rt.
    destruct (getitems_loop _ _ _ _ _ c) as [items|]; [|done]. cbn [res_map]. f_equal.
    assert (H : ∀ l acc, fold_left (add_item tyV ps) (map rti l) (map rt acc) = map rt (fold_left (add_item tyU ps) l acc)).
    { induction l as [|i l IH]; intros acc; [done|]. cbn [map fold_left]. rewrite <- IH. f_equal.
      destruct i; cbn; [by rewrite map_app|]. by rewrite col_extend_rt. }
    rewrite <- (H _ []). f_equal. destruct (match sl_step s with None => false | _ => _ end); [|done].
    rewrite <- map_rev, !map_map. apply map_ext. by intros [].
  Qed.
End retype.
