(** History of reports, and percentiles. *)
From Coq Require Import String Ascii ZArith QArith Qround Bool Lia Lqa List Permutation Sorted.
From Verif Require Import Base RouterModel RouterSpec RouterProofs StatsModel StatsSpec StatsProofs StatsProofs2.
Import ListNotations.
Local Open Scope list_scope.

Section Runs.
Context {num : Type} (zero one : num) (add sub : num -> num -> num).
Context (pct : list num -> num * num) (app_name app_instance : string).
Notation step := (step num zero one add sub pct app_name app_instance).
Notation run := (run num zero one add sub pct app_name app_instance).
Notation reports := (reports zero one add sub pct app_name app_instance).
Notation value := (value zero one add sub).
Notation after p t ops := (fst (run (init num p t) ops)).

Lemma run_cons : forall s o ops, fst (run s (o :: ops)) = fst (run (fst (step s o)) ops).
Proof.
  assert (H : forall ops s l l', fst (fold_left (fun a o => let '(s', x) := step (fst a) o in (s', snd a ++ [x])) ops (s, l)) =
                                 fst (fold_left (fun a o => let '(s', x) := step (fst a) o in (s', snd a ++ [x])) ops (s, l'))).
  { induction ops as [|o ops IH]; intros s l l'; [reflexivity|]. cbn [fold_left fst snd].
    destruct (step s o) as (s', x). apply IH. }
  intros s o ops. unfold StatsModel.run. cbn [fold_left fst snd].
  destruct (step s o) as (s', x) eqn:E. cbn [fst]. apply H.
Qed.

Lemma update_hist : forall s e, hist num (fst (step s (Query _ e))) = hist num s /\ history_length num (fst (step s (Query _ e))) = history_length num s.
Proof.
  intros s e. cbn [StatsModel.step]. unfold update_current. destruct (set_all _ _ _) as (d, [x|]); [split; reflexivity|].
  destruct (set_all _ _ _) as (d', x). split; reflexivity.
Qed.
Lemma gather_hist : forall s e,
  history_length num (fst (step s (Gather _ e))) = history_length num s /\
  hist num (fst (step s (Gather _ e))) =
    match step s (Query _ e) with
    | (q, None) => let h := current num q :: hist num s in
                   if Z.ltb (history_length num s) (Z.of_nat (List.length h)) then removelast h else h
    | (_, Some _) => hist num s
    end.
Proof.
  intros s e. destruct (update_hist s e) as (H1 & H2).
  cbn [StatsModel.step] in *. unfold gather. destruct (update_current _ _ _ _ _ s e) as (q, [x|]); cbn [fst] in *.
  - auto.
  - rewrite H1, H2. cbn [fst reset_current set_current set_durations set_hist hist history_length]. auto.
Qed.
Lemma other_hist : forall s o, (forall e, o <> Gather _ e) -> no_length_change o ->
  hist num (fst (step s o)) = hist num s /\ history_length num (fst (step s o)) = history_length num s.
Proof.
  intros s o HG HL. destruct o; try (split; reflexivity).
  - cbn [StatsModel.step]. unfold lift. destruct (change _ _ _ _ _ _); split; reflexivity.
  - cbn [StatsModel.step]. unfold lift. destruct (change _ _ _ _ _ _); split; reflexivity.
  - cbn [StatsModel.step]. unfold lift. destruct (set_statistic_value _ _ _ _); split; reflexivity.
  - cbn [StatsModel.step]. destruct (change _ _ _ _ _ _); split; reflexivity.
  - cbn [StatsModel.step]. destruct (change _ _ _ _ _ _); [|split; reflexivity]. destruct (sget _ _); split; reflexivity.
  - apply update_hist.
  - exfalso. eapply HG; eauto.
  - destruct HL.
Qed.

Lemma removelast_firstn' : forall (A : Type) (l : list A) n, List.length l = S n -> removelast l = firstn n l.
Proof. intros A l n H. rewrite removelast_firstn_len, H. reflexivity. Qed.

Lemma history_from : forall ops s, Forall no_length_change ops ->
  (Z.of_nat (List.length (hist num s)) <= Z.max 0 (history_length num s))%Z ->
  hist num (fst (run s ops)) = firstn (Z.to_nat (history_length num s)) (rev (reports s ops) ++ hist num s).
Proof.
  induction ops as [|o ops IH]; intros s F L.
  - cbn [StatsSpec.reports rev app]. rewrite firstn_all2 by lia. reflexivity.
  - inversion F as [|? ? F1 F2]; subst. rewrite run_cons.
    assert (D : (exists e, o = Gather _ e) \/ (forall e, o <> Gather _ e)) by (destruct o; (left; eexists; reflexivity) || (right; intros; discriminate)).
    destruct D as [(e & ->)|D].
    + destruct (gather_hist s e) as (H1 & H2). rewrite IH; auto.
      * rewrite H1, H2. cbn [StatsSpec.reports]. destruct (step s (Query num e)) as (q, [x|]); [reflexivity|].
        cbv zeta. cbn [rev]. rewrite <- app_assoc. cbn [app].
        destruct (Z.ltb_spec (history_length num s) (Z.of_nat (List.length (current num q :: hist num s)))) as [Hl|Hl]; [|reflexivity].
        cbn [List.length] in Hl.
        set (r := rev (reports _ _)). set (c := current num q). set (h := hist num s) in *.
        assert (Hc : removelast (c :: h) = firstn (List.length h) (c :: h)) by (apply removelast_firstn'; reflexivity).
        rewrite Hc, !firstn_app. f_equal. rewrite firstn_firstn. f_equal. lia.
      * rewrite H1, H2. destruct (step s (Query num e)) as (q, [x|]); [exact L|]. cbv zeta.
        destruct (Z.ltb_spec (history_length num s) (Z.of_nat (List.length (current num q :: hist num s)))) as [Hl|Hl]; [|lia].
        rewrite (removelast_firstn' _ _ (List.length (hist num s))) by reflexivity. rewrite firstn_length. cbn [List.length] in *. lia.
    + destruct (other_hist s o D F1) as (H1 & H2). rewrite IH; auto; [|rewrite H1, H2; auto]. rewrite H1, H2.
      destruct o; cbn [StatsSpec.reports]; try reflexivity. exfalso. eapply D; eauto.
Qed.

Lemma history : forall p t h ops, Forall no_length_change ops ->
  hist num (after p t (SetHistoryLength _ h :: ops)) =
  firstn (Z.to_nat h) (rev (reports (init num p t) (SetHistoryLength _ h :: ops))).
Proof.
  intros p t h ops F. rewrite run_cons. rewrite history_from; auto; [|cbn; lia].
  cbn [StatsModel.step fst history_length hist init StatsSpec.reports]. rewrite app_nil_r. reflexivity.
Qed.

Lemma bounded_by_largest : forall p t m ops, (12 <= m)%Z ->
  Forall (fun o => match o with SetHistoryLength _ n => (n <= m)%Z | _ => True end) ops ->
  (Z.of_nat (List.length (hist num (after p t ops))) <= m)%Z.
Proof.
  intros p t m ops Hm.
  enough (G : forall ops s, Forall (fun o => match o with SetHistoryLength _ n => (n <= m)%Z | _ => True end) ops ->
     (history_length num s <= m)%Z -> (Z.of_nat (List.length (hist num s)) <= m)%Z -> (Z.of_nat (List.length (hist num (fst (run s ops)))) <= m)%Z).
  { intros F. apply G; auto; cbn; lia. }
  clear ops. induction ops as [|o ops IH]; intros s F H1 H2; [exact H2|]. inversion F as [|? ? F1 F2]; subst. rewrite run_cons.
  assert (D : (exists e, o = Gather _ e) \/ (exists n, o = SetHistoryLength _ n) \/ ((forall e, o <> Gather _ e) /\ no_length_change o)).
  { destruct o; try (right; right; split; [intros; discriminate|exact I]); [left; eauto|right; left; eauto]. }
  destruct D as [(e & ->)|[(n & ->)|(D1 & D2)]].
  - destruct (gather_hist s e) as (E1 & E2). apply IH; auto; [lia|]. rewrite E2.
    destruct (step s (Query num e)) as (q, [x|]); [exact H2|]. cbv zeta.
    destruct (Z.ltb_spec (history_length num s) (Z.of_nat (List.length (current num q :: hist num s)))) as [Hl|Hl]; [|lia].
    rewrite (removelast_firstn' _ _ (List.length (hist num s))) by reflexivity. rewrite firstn_length. cbn [List.length] in *. lia.
  - apply IH; auto.
  - destruct (other_hist s o D1 D2) as (E1 & E2). apply IH; auto; [lia|]. rewrite E1. auto.
Qed.

(** C38 *)
Lemma counters : forall p t ops n v, compatible ops -> tracked_first ops -> counter ops n ->
  shows (current num (after p t ops)) n (Num num v) <-> value n ops = Some v.
Proof.
  intros p t ops n v HC HT Hn. rewrite shows_get.
  destruct (run_ok zero one add sub pct app_name app_instance ops HC HT p t ops [] (eq_sym (app_nil_r ops))) as (I & _).
  destruct (in_dec string_dec n (all_names ops)) as [Hi|Hi].
  - rewrite (I_val _ _ _ _ _ _ _ I n Hi Hn). destruct (value n ops); cbn; split; intros E; congruence.
  - split.
    + intros Hg. exfalso. apply Hi. pose proof (I_good _ _ _ _ _ _ _ I (path n) _ (path_ne n) Hg) as G. cbn in G.
      apply (N_in ops n). exact G.
    + intros E. exfalso. apply Hi. clear I HC HT. revert E. unfold StatsSpec.value.
      assert (A : forall l c, (forall o, In o l -> ~ In n (touched o)) -> fold_left (change1 zero one add sub n) l c <> None -> c <> None).
      { induction l as [|o l IH]; cbn [fold_left]; intros c Hl H; [auto|].
        specialize (IH _ (fun x Hx => Hl x (or_intror Hx)) H). pose proof (Hl o (or_introl eq_refl)) as Ho.
        destruct o; cbn [StatsSpec.change1 touched] in *; auto.
        - destruct (String.eqb_spec key n); auto. exfalso. apply Ho. left; auto.
        - destruct (String.eqb_spec key n); auto. exfalso. apply Ho. left; auto.
        - destruct (String.eqb_spec key n); auto. exfalso. apply Ho. left; auto.
        - destruct (String.eqb_spec (call_count key) n); auto. exfalso. apply Ho. left; auto.
        - destruct (String.eqb_spec (call_count key) n); auto. exfalso. apply Ho. left; auto.
        - destruct c; congruence. }
      intros E. exfalso. apply (A ops None); [|congruence|auto].
      intros o Ho Ht. apply Hi. apply in_or_app. right. apply in_flat_map. eauto.
Qed.
Lemma no_exception : forall p t ops, compatible ops -> tracked_first ops ->
  Forall (fun x => x = None) (snd (run (init num p t) ops)).
Proof.
  intros p t ops HC HT.
  apply (run_ok zero one add sub pct app_name app_instance ops HC HT p t ops [] (eq_sym (app_nil_r ops))).
Qed.

Lemma queried : forall p t ops e, compatible ops -> tracked_first ops ->
  exists s', step (after p t ops) (Query _ e) = (s', None) /\
    (forall n v, counter ops n -> (shows (current num s') n (Num num v) <-> value n ops = Some v)) /\
    (forall k, In (AddQueue _ k) ops -> shows (current num s') k (Num num (sizes num e k))) /\
    (forall k, In (Track _ k) ops -> ~ In (AddQueue _ (p95 k)) ops -> ~ In (AddQueue _ (p99 k)) ops ->
       shows (current num s') (p95 k) (Num num (fst (pct (recorded k ops)))) /\
       shows (current num s') (p99 k) (Num num (snd (pct (recorded k ops))))).
Proof.
  intros p t ops e HC HT.
  destruct (run_ok zero one add sub pct app_name app_instance ops HC HT p t ops [] (eq_sym (app_nil_r ops))) as (I & _).
  destruct (update_ok zero one add sub pct app_name app_instance ops HC _ ops e I (incl_refl _)) as (s' & E & I' & _ & _ & _ & _ & Q & P5 & P9 & _).
  exists s'. split; [exact E|]. split; [|split].
  - intros n v Hn. rewrite shows_get. pose proof (counters p t ops n v HC HT Hn) as C. rewrite shows_get in C.
    destruct (in_dec string_dec n (all_names ops)) as [Hi|Hi].
    + rewrite (I_val _ _ _ _ _ _ _ I n Hi Hn) in C. rewrite (I_val _ _ _ _ _ _ _ I' n Hi Hn). exact C.
    + split.
      * intros Hg. exfalso. apply Hi. pose proof (I_good _ _ _ _ _ _ _ I' (path n) _ (path_ne n) Hg) as G. cbn in G.
        apply (N_in ops n). exact G.
      * intros Hv. apply C in Hv. exfalso. apply Hi. pose proof (I_good _ _ _ _ _ _ _ I (path n) _ (path_ne n) Hv) as G. cbn in G.
        apply (N_in ops n). exact G.
  - intros k Hk. rewrite shows_get. auto.
  - intros k Hk H5 H9. rewrite !shows_get. auto.
Qed.
(** The values the keeper fills in itself. *)
Lemma settings : forall p t ops, start_time num (after p t ops) = started t ops /\ gather_period num (after p t ops) = period p ops.
Proof.
  intros p t ops. unfold started, period.
  assert (G : forall ops s, start_time num (fst (run s ops)) = fold_left started1 ops (start_time num s) /\
                            gather_period num (fst (run s ops)) = fold_left period1 ops (gather_period num s)).
  { clear ops. induction ops as [|o ops IH]; intros s; [split; reflexivity|]. rewrite run_cons.
    destruct (IH (fst (step s o))) as (-> & ->). cbn [fold_left].
    assert (U : forall e, start_time num (fst (update_current num sub pct app_name app_instance s e)) = start_time num s /\
                          gather_period num (fst (update_current num sub pct app_name app_instance s e)) = gather_period num s).
    { intros e. unfold update_current. destruct (set_all _ _ _) as (d, [x|]); [split; reflexivity|].
      destruct (set_all _ _ _) as (d', x). split; reflexivity. }
    destruct o; cbn [StatsModel.step started1 period1]; unfold lift; try (split; reflexivity).
    - destruct (change _ _ _ _ _ _); split; reflexivity.
    - destruct (change _ _ _ _ _ _); split; reflexivity.
    - destruct (set_statistic_value _ _ _ _); split; reflexivity.
    - destruct (change _ _ _ _ _ _); split; reflexivity.
    - destruct (change _ _ _ _ _ _); [|split; reflexivity]. destruct (sget _ _); split; reflexivity.
    - destruct (U e) as (-> & ->). split; reflexivity.
    - unfold gather. destruct (U e) as (U1 & U2). destruct (update_current _ _ _ _ _ s e) as (q, [x|]); cbn [fst] in *;
        cbn [fst reset_current set_current set_durations set_hist start_time gather_period]; rewrite U1, U2; split; reflexivity. }
  apply (G ops (init num p t)).
Qed.
Lemma own_values : forall p t ops e, compatible ops -> tracked_first ops ->
  let d := current num (fst (step (after p t ops) (Query _ e))) in
  shows d "timestamp" (Num num (now num e)) /\ shows d "uptime" (Num num (sub (now num e) (started t ops))) /\
  shows d "gather_period" (Num num (period p ops)) /\
  shows d "application.name" (Str num app_name) /\ shows d "application.instance" (Str num app_instance).
Proof.
  intros p t ops e HC HT d. destruct (settings p t ops) as (S1 & S2). 
  destruct (run_ok zero one add sub pct app_name app_instance ops HC HT p t ops [] (eq_sym (app_nil_r ops))) as (I & _).
  destruct (update_ok zero one add sub pct app_name app_instance ops HC _ ops e I (incl_refl _)) as (s' & E & _ & _ & _ & _ & _ & _ & _ & _ & R).
  unfold d. cbn [StatsModel.step]. rewrite E. cbn [fst]. rewrite S1, S2 in R. rewrite !shows_get.
  repeat split; apply R; cbn; tauto.
Qed.
(** What the statistics endpoint answers. *)
Lemma answers : forall p t h ops e type, Forall no_length_change ops -> (1 <= h)%Z ->
  let s := after p t (SetHistoryLength _ h :: ops) in
  let rs := reports (init num p t) (SetHistoryLength _ h :: ops) in
  eco_statistics_get num sub pct app_name app_instance type e s =
    if String.eqb type "current" then inr (current num (fst (step s (Query _ e))))
    else if String.eqb type "full" then inl (firstn (Z.to_nat h) (rev rs))
    else inr (List.last rs []).
Proof.
  intros p t h ops e type F H s rs. unfold eco_statistics_get. destruct (String.eqb type "current"); [reflexivity|].
  unfold s. rewrite (history p t h ops F). fold rs. destruct (String.eqb type "full"); [reflexivity|]. f_equal.
  destruct rs as [|r rs'] using rev_ind; [rewrite firstn_nil; reflexivity|]. rewrite rev_unit, last_last.
  destruct (Z.to_nat h) eqn:E; [lia|]. reflexivity.
Qed.
(** The newest report in the history is what a query would have shown. *)
Lemma gathered : forall s e s', step s (Query _ e) = (s', None) -> (1 <= history_length num s)%Z ->
  exists older, hist num (fst (step s (Gather _ e))) = current num s' :: older.
Proof.
  intros s e s' E H. destruct (gather_hist s e) as (_ & ->). rewrite E. cbv zeta.
  destruct (Z.ltb_spec (history_length num s) (Z.of_nat (List.length (current num s' :: hist num s)))) as [Hl|Hl]; [|eauto].
  cbn [List.length] in Hl. cbn [removelast]. destruct (hist num s) eqn:Eh; [cbn in Hl; lia|]. eauto.
Qed.
End Runs.

(** Percentiles *)
Local Open Scope Q_scope.
Lemma insert_perm : forall x l, Permutation (insert_q x l) (x :: l).
Proof.
  induction l as [|y l IH]; cbn; [auto|]. destruct (Qle_bool x y); [auto|].
  eapply perm_trans; [apply perm_skip, IH|apply perm_swap].
Qed.
Lemma sort_perm : forall l, Permutation (sort_q l) l.
Proof.
  induction l as [|x l IH]; cbn; [auto|]. eapply perm_trans; [apply insert_perm|apply perm_skip, IH].
Qed.
Definition sorted (l : list Q) : Prop := StronglySorted Qle l.
Lemma insert_sorted : forall x l, sorted l -> sorted (insert_q x l).
Proof.
  unfold sorted. induction l as [|y l IH]; intros S; cbn.
  - repeat constructor.
  - inversion S as [|? ? S1 S2]; subst. destruct (Qle_bool x y) eqn:E.
    + apply Qle_bool_iff in E. constructor; auto. constructor; auto.
      eapply Forall_impl; [|exact S2]. intros a Ha. cbn in Ha. eapply Qle_trans; eauto.
    + assert (Hyx : y <= x).
      { destruct (Qlt_le_dec y x) as [H|H]; [apply Qlt_le_weak; auto|]. apply Qle_bool_iff in H. congruence. }
      constructor; [apply IH; auto|].
      apply Forall_forall. intros a Ha. apply (Permutation_in _ (insert_perm x l)) in Ha. destruct Ha as [<-|Ha]; auto.
      rewrite Forall_forall in S2. auto.
Qed.
Lemma sort_sorted : forall l, sorted (sort_q l).
Proof. induction l; cbn; [constructor|]. apply insert_sorted. auto. Qed.
Lemma sorted_nth : forall l, sorted l -> forall i j, (i <= j)%nat -> (j < List.length l)%nat -> nth i l 0 <= nth j l 0.
Proof.
  unfold sorted. induction l as [|x l IH]; intros S i j Hij Hj; [cbn in Hj; lia|].
  inversion S as [|? ? S1 S2]; subst. destruct j as [|j].
  - replace i with O by lia. apply Qle_refl.
  - cbn [List.length] in Hj. destruct i as [|i].
    + cbn [nth]. rewrite Forall_forall in S2. apply S2. apply nth_In. lia.
    + cbn [nth]. apply IH; auto; lia.
Qed.

(** The interpolation between two neighbours. *)
Definition interp (a b : Q) (delta : Z) : Q := (a * inject_Z (100 - delta) + b * inject_Z delta) / 100.
Lemma interp_eq : forall a b delta, interp a b delta == a + (b - a) * (inject_Z delta / 100).
Proof.
  intros. unfold interp. unfold Z.sub. rewrite inject_Z_plus, inject_Z_opp.
  change (inject_Z 100) with (100#1). field.
Qed.
Lemma frac_le : forall x y : Z, (x <= y)%Z -> inject_Z x / 100 <= inject_Z y / 100.
Proof. intros x y H. apply Qmult_le_compat_r; [|discriminate]. rewrite <- Zle_Qle. auto. Qed.
Lemma frac_0 : inject_Z 0 / 100 == 0. Proof. reflexivity. Qed.
Lemma frac_100 : inject_Z 100 / 100 == 1. Proof. reflexivity. Qed.

Lemma scale_le : forall d x y : Q, 0 <= d -> x <= y -> d * x <= d * y.
Proof. intros d x y H1 H2. rewrite (Qmult_comm d x), (Qmult_comm d y). apply Qmult_le_compat_r; auto. Qed.

Definition index (ld i : Z) : Z :=
  let j := (i * (ld + 1) / 100)%Z in (if j <? 1 then 1 else if ld - 1 <? j then ld - 1 else j)%Z.
Lemma cut_interp : forall data i,
  cut_point data i = interp (nth (Z.to_nat (index (Z.of_nat (List.length data)) i - 1)) data 0)
                            (nth (Z.to_nat (index (Z.of_nat (List.length data)) i)) data 0)
                            (i * (Z.of_nat (List.length data) + 1) - index (Z.of_nat (List.length data)) i * 100).
Proof. reflexivity. Qed.

Lemma index_facts : forall ld i, (2 <= ld)%Z -> (95 <= i <= 99)%Z ->
  (1 <= index ld i <= ld - 1)%Z /\ (0 <= i * (ld + 1) - index ld i * 100)%Z /\
  (index ld i < ld - 1 -> i * (ld + 1) - index ld i * 100 < 100)%Z /\
  (i * (ld + 1) - index ld i * 100 <= Z.max 99 (i * (ld + 1) - (ld - 1) * 100))%Z.
Proof.
  intros ld i Hl Hi. unfold index. cbv zeta.
  pose proof (Z.div_mod (i * (ld + 1)) 100 ltac:(lia)) as E.
  pose proof (Z.mod_pos_bound (i * (ld + 1)) 100 ltac:(lia)) as B.
  assert (3 * 95 <= i * (ld + 1))%Z by nia.
  set (j := (i * (ld + 1) / 100)%Z) in *. set (m := (i * (ld + 1))%Z) in *.
  destruct (Z.ltb_spec j 1); [lia|]. destruct (Z.ltb_spec (ld - 1) j); lia.
Qed.
Lemma index_mono : forall ld, (2 <= ld)%Z -> (index ld 95 <= index ld 99)%Z.
Proof.
  intros ld Hl. unfold index. cbv zeta.
  assert (95 * (ld + 1) / 100 <= 99 * (ld + 1) / 100)%Z by (apply Z.div_le_mono; lia).
  destruct (Z.ltb_spec (95 * (ld + 1) / 100) 1); destruct (Z.ltb_spec (99 * (ld + 1) / 100) 1);
  destruct (Z.ltb_spec (ld - 1) (95 * (ld + 1) / 100)); destruct (Z.ltb_spec (ld - 1) (99 * (ld + 1) / 100)); lia.
Qed.

Section Cut.
Context (data : list Q) (S : sorted data) (L : (2 <= List.length data)%nat).
Notation ld := (Z.of_nat (List.length data)).
Notation at_ i := (nth (Z.to_nat i) data 0).

Lemma neighbours : forall i, (1 <= i <= ld - 1)%Z -> at_ 0 <= at_ (i - 1) /\ at_ (i - 1) <= at_ i /\ at_ i <= at_ (ld - 1).
Proof. intros i Hi. repeat split; apply sorted_nth; auto; lia. Qed.

Lemma cut_ge_min : forall i, (95 <= i <= 99)%Z -> at_ 0 <= cut_point data i.
Proof.
  intros i Hi. destruct (index_facts ld i ltac:(lia) Hi) as (I1 & I2 & I3 & I4).
  destruct (neighbours _ I1) as (N1 & N2 & N3). rewrite cut_interp, interp_eq.
  assert (0 <= inject_Z (i * (ld + 1) - index ld i * 100) / 100) by (rewrite <- frac_0; apply frac_le; auto).
  set (a := at_ (index ld i - 1)) in *. set (b := at_ (index ld i)) in *. set (f := inject_Z _ / 100) in *.
  assert (0 <= (b - a) * f) by (apply Qmult_le_0_compat; lra). lra.
Qed.
Lemma cut_le : forall i, (95 <= i <= 99)%Z ->
  (i * (ld + 1) <= 100 * ld)%Z -> cut_point data i <= at_ (ld - 1).
Proof.
  intros i Hi Hm. destruct (index_facts ld i ltac:(lia) Hi) as (I1 & I2 & I3 & I4).
  destruct (neighbours _ I1) as (N1 & N2 & N3). rewrite cut_interp, interp_eq.
  assert (F : inject_Z (i * (ld + 1) - index ld i * 100) / 100 <= 1) by (rewrite <- frac_100; apply frac_le; lia).
  set (a := at_ (index ld i - 1)) in *. set (b := at_ (index ld i)) in *. set (f := inject_Z _ / 100) in *.
  assert ((b - a) * f <= (b - a) * 1) by (apply scale_le; lra). lra.
Qed.
Lemma cut_excess : forall i, (95 <= i <= 99)%Z ->
  cut_point data i <= at_ (ld - 1) + (97#100) * (at_ (ld - 1) - at_ 0).
Proof.
  intros i Hi. destruct (index_facts ld i ltac:(lia) Hi) as (I1 & I2 & I3 & I4).
  destruct (neighbours _ I1) as (N1 & N2 & N3). rewrite cut_interp, interp_eq.
  assert (F : inject_Z (i * (ld + 1) - index ld i * 100) / 100 <= inject_Z 197 / 100)
    by (apply frac_le; assert (i * (ld + 1) <= 99 * (ld + 1))%Z by nia; lia).
  change (inject_Z 197 / 100) with (197#100) in F.
  set (a := at_ (index ld i - 1)) in *. set (b := at_ (index ld i)) in *. set (f := inject_Z _ / 100) in *.
  assert ((b - a) * f <= (b - a) * (197#100)) by (apply scale_le; lra). lra.
Qed.
Lemma cut_mono : cut_point data 95 <= cut_point data 99.
Proof.
  destruct (index_facts ld 95 ltac:(lia) ltac:(lia)) as (I1 & I2 & I3 & I4).
  destruct (index_facts ld 99 ltac:(lia) ltac:(lia)) as (J1 & J2 & J3 & J4).
  pose proof (index_mono ld ltac:(lia)) as M. destruct (neighbours _ I1) as (N1 & N2 & N3). destruct (neighbours _ J1) as (M1 & M2 & M3).
  rewrite !cut_interp, !interp_eq. destruct (Z.eq_dec (index ld 95) (index ld 99)) as [e|ne].
  - rewrite <- e in *.
    assert (F : inject_Z (95 * (ld + 1) - index ld 95 * 100) / 100 <= inject_Z (99 * (ld + 1) - index ld 95 * 100) / 100) by (apply frac_le; lia).
    set (a := at_ (index ld 95 - 1)) in *. set (b := at_ (index ld 95)) in *.
    apply Qplus_le_r. apply scale_le; lra.
  - assert (F : inject_Z (95 * (ld + 1) - index ld 95 * 100) / 100 <= 1) by (rewrite <- frac_100; apply frac_le; lia).
    assert (G : 0 <= inject_Z (99 * (ld + 1) - index ld 99 * 100) / 100) by (rewrite <- frac_0; apply frac_le; auto).
    assert (K : at_ (index ld 95) <= at_ (index ld 99 - 1)) by (apply sorted_nth; auto; lia).
    set (a := at_ (index ld 95 - 1)) in *. set (b := at_ (index ld 95)) in *.
    set (c := at_ (index ld 99 - 1)) in *. set (d := at_ (index ld 99)) in *.
    assert ((b - a) * (inject_Z (95 * (ld + 1) - index ld 95 * 100) / 100) <= (b - a) * 1) by (apply scale_le; lra).
    assert (0 <= (d - c) * (inject_Z (99 * (ld + 1) - index ld 99 * 100) / 100)) by (apply Qmult_le_0_compat; lra). lra.
Qed.
End Cut.

Lemma percentiles_ok : forall l m M, is_min m l -> is_max M l ->
  m <= fst (percentiles l) /\ fst (percentiles l) <= snd (percentiles l) /\
  snd (percentiles l) <= M + (97#100) * (M - m) /\
  ((19 <= List.length l)%nat -> fst (percentiles l) <= M) /\
  ((99 <= List.length l)%nat -> snd (percentiles l) <= M) /\
  (List.length l = 1%nat -> snd (percentiles l) <= M).
Proof.
  intros l m M (Hm1 & Hm2) (HM1 & HM2). destruct l as [|x [|y l]]; [destruct Hm1| |].
  - cbn [percentiles fst snd List.length]. destruct Hm1 as [<-|[]]. destruct HM1 as [<-|[]].
    repeat split; intros; lra.
  - set (L := x :: y :: l) in *. change (percentiles L) with (cut_point (sort_q L) 95, cut_point (sort_q L) 99). cbn [fst snd].
    assert (P := sort_perm L). assert (SS := sort_sorted L). assert (Len := Permutation_length P).
    assert (L2 : (2 <= List.length (sort_q L))%nat) by (rewrite Len; cbn; lia).
    assert (Lo : m <= nth (Z.to_nat 0) (sort_q L) 0).
    { rewrite Forall_forall in Hm2. apply Hm2. apply (Permutation_in _ P). apply nth_In. change (Z.to_nat 0) with O. lia. }
    assert (Hi : nth (Z.to_nat (Z.of_nat (List.length (sort_q L)) - 1)) (sort_q L) 0 <= M).
    { rewrite Forall_forall in HM2. apply HM2. apply (Permutation_in _ P). apply nth_In. lia. }
    pose proof (cut_ge_min _ SS L2 95 ltac:(lia)). pose proof (cut_mono _ SS L2).
    pose proof (cut_excess _ SS L2 99 ltac:(lia)).
    repeat split; try lra.
    + intros H19. rewrite <- Len in H19. pose proof (cut_le _ SS L2 95 ltac:(lia) ltac:(lia)). lra.
    + intros H99. rewrite <- Len in H99. pose proof (cut_le _ SS L2 99 ltac:(lia) ltac:(lia)). lra.
    + intros HL1. cbn in HL1. lia.
Qed.
