(** Proofs about tracing: the size of the table of open spans, and metadata. *)
From Coq Require Import String ZArith Bool Lia List Arith Permutation.
From Verif Require Import Base SpanKeyModel RouterModel RouterProofs WireModel TraceModel TraceSpec TraceProofs TraceProofs2.
Import ListNotations.
Local Open Scope Z_scope.

Lemma keys_dset k n d : map fst (dset k n d) = match dget k d with Some _ => map fst d | None => map fst d ++ [k] end.
Proof.
  induction d as [|[k' m] d IH]; cbn [dset dget map fst app]; [reflexivity|]. destruct (key_eqb k k') eqn:E; cbn [map fst]; [reflexivity|].
  rewrite IH. destruct (dget k d); reflexivity.
Qed.
Lemma dget_in k d : dget k d <> None <-> In k (map fst d).
Proof.
  induction d as [|[k' m] d IH]; cbn [dget map fst In]; [split; congruence|]. destruct (key_eqb k k') eqn:E.
  - apply key_eqb_spec in E as ->. split; [auto|discriminate].
  - rewrite IH. split; [auto|]. intros [->|H]; [rewrite key_eqb_refl in E; discriminate|exact H].
Qed.
Lemma nodup_dset k n d : NoDup (map fst d) -> NoDup (map fst (dset k n d)).
Proof.
  intros N. rewrite keys_dset. destruct (dget k d) eqn:E; [exact N|].
  apply (Permutation_NoDup (l := k :: map fst d)); [apply Permutation_cons_append|]. constructor; [|exact N]. intros I. apply dget_in in I. congruence.
Qed.
Lemma nodup_dpop k d : NoDup (map fst d) -> NoDup (map fst (dpop k d)).
Proof.
  unfold dpop. induction d as [|[k' m] d IH]; cbn [filter map fst]; intros N; [exact N|]. inversion N as [|? ? N1 N2]; subst.
  destruct (negb (key_eqb k k')); cbn [map fst]; auto. constructor; [|auto]. intros I. apply N1. apply in_map_iff in I as ((k2, m2) & <- & I).
  apply filter_In in I as [I _]. apply in_map_iff. exists (k2, m2). auto.
Qed.
Definition flying (r : req) : bool := match r_status r with InFlight => true | _ => false end.
(** ** Without failures the table holds exactly the requests under way *)
Record minv (w : world) : Prop := {
  m_a : ainv w;
  m_nodup : NoDup (map fst (active w));
  m_only : forall k, In k (map fst (active w)) -> exists i r, under_way w i r /\ r_key r = k }.
Lemma minv_step w ev : minv w -> requests_apart w ev -> no_failure w ev -> minv (step w ev).
Proof.
  intros M R F. pose proof (ainv_step w ev (m_a w M) R) as A'. destruct M as [A N O].
  constructor; [exact A'|..]; clear A'; destruct ev as [k route nt ns|i dto others|i|i|m retries nt ns|a s|a|]; cbn [step no_failure] in *; try contradiction; auto.
  - apply nodup_dset, N.
  - destruct (in_flight w i); exact N.
  - destruct (in_flight w i) as [r|]; [|exact N]. apply nodup_dpop, N.
  - destruct (nth_error (entries w) m) as [e|]; [|exact N]. unfold before_process. destruct (parent_of _ _) as [[]|]; exact N.
  - destruct (running w a); exact N.
  - destruct (running w a); exact N.
  - intros k' I. cbn [before_routing active] in I. rewrite keys_dset in I.
    assert (Q : In k' (map fst (active w)) \/ k' = k).
    { destruct (dget k (active w)); [auto|]. apply in_app_or in I as [I|[I|[]]]; auto. }
    clear I. destruct Q as [I| ->].
    + destruct (O k' I) as (i & r & [H S] & K). exists i, r. split; [|exact K]. split; [|exact S]. cbn [before_routing reqs]. apply nth_snoc. auto.
    + exists (List.length (reqs w)), (mkReq k route InFlight). split; [|reflexivity]. split; [|reflexivity]. cbn [before_routing reqs]. apply nth_snoc. auto.
  - destruct (in_flight w i); exact O.
  - destruct (in_flight w i) as [r|] eqn:E; [|exact O]. apply in_flight_spec in E. intros k' I. cbn [after_routing active] in I.
    apply dget_in in I. rewrite dget_dpop in I. destruct (key_eqb k' (r_key r)) eqn:K; [congruence|]. apply dget_in in I.
    destruct (O k' I) as (j & q & [H S] & Q). exists j, q. split; [|exact Q]. split; [|exact S]. cbn [after_routing reqs]. apply modify_some. left. split; [|exact H].
    intros ->. destruct E as [E _]. assert (q = r) by congruence. subst q k'. rewrite key_eqb_refl in K. discriminate.
  - destruct (nth_error (entries w) m) as [e|]; [|exact O]. unfold before_process. destruct (parent_of _ _) as [[]|]; exact O.
  - destruct (running w a); exact O.
  - destruct (running w a); exact O.
Qed.
Lemma minv_run es : always requests_apart boot es -> always no_failure boot es -> minv (run boot es).
Proof.
  intros R F. apply (always_inv (fun w e => requests_apart w e /\ no_failure w e) minv).
  - intros w ev M [H1 H2]. now apply minv_step.
  - constructor; [apply ainv_boot|constructor|intros k []].
  - now apply always_and.
Qed.
Lemma nodup_filter {A B} (p : A -> bool) (f : A -> B) l :
  (forall i j x y, nth_error l i = Some x -> nth_error l j = Some y -> p x = true -> p y = true -> f x = f y -> i = j) -> NoDup (map f (filter p l)).
Proof.
  induction l as [|x l IH]; intros H; cbn [filter]; [constructor|].
  assert (T : NoDup (map f (filter p l))).
  { apply IH. intros i j y z Hi Hj Py Pz E. assert (S i = S j) by (eapply (H (S i) (S j)); eauto). lia. }
  destruct (p x) eqn:P; [|exact T]. cbn [map]. constructor; [|exact T]. intros I. apply in_map_iff in I as (y & E & I). apply filter_In in I as [I Py].
  apply In_nth_error in I as [j J]. assert (O = S j) by (eapply (H O (S j) x y); eauto). discriminate.
Qed.
Lemma minv_size w : minv w -> List.length (active w) = List.length (filter flying (reqs w)).
Proof.
  intros [A N O]. rewrite <- (map_length fst (active w)), <- (map_length r_key (filter flying (reqs w))). apply Permutation_length, NoDup_Permutation; [exact N|..].
  - apply nodup_filter. intros i j x y Hi Hj Px Py E. unfold flying in *. symmetry. eapply (same_key w j i x y A); try split; eauto; [destruct (r_status y)|destruct (r_status x)]; congruence.
  - intros k. split.
    + intros I. destruct (O k I) as (i & r & [H S] & <-). apply in_map, filter_In. split; [eapply nth_error_In; eauto|]. unfold flying. now rewrite S.
    + intros I. apply in_map_iff in I as (r & <- & I). apply filter_In in I as [I P]. apply In_nth_error in I as [i H]. unfold flying in P.
      destruct (a_act w A i r) as (n & x & D & _); [split; [exact H|destruct (r_status r); congruence]|]. apply dget_in. congruence.
Qed.

(** ** Failed requests pile up *)
Definition leak_event (n : nat) : list event := [Receive (mkKey (Z.of_nat (S n)) 1) "r" 1 1; Fail n].
Definition leak (n : nat) : list event := concat (map leak_event (seq 0 n)).
Lemma leak_snoc n : leak (S n) = (leak n ++ leak_event n)%list.
Proof. unfold leak. rewrite seq_S, map_app, concat_app. cbn [map concat]. now rewrite app_nil_r. Qed.
Lemma always_app P w l m : always P w (l ++ m) <-> always P w l /\ always P (run w l) m.
Proof.
  revert w. induction l as [|e l IH]; intros w; cbn [app always run fold_left]; [tauto|]. rewrite IH. unfold run. tauto.
Qed.
Definition leaked (n : nat) (w : world) : Prop :=
  List.length (reqs w) = n /\ (forall i r, nth_error (reqs w) i = Some r -> r_status r = Failed) /\ List.length (active w) = n /\
  (forall k, In k (map fst (active w)) -> trace_id k <= Z.of_nat n).
Lemma leak_ok n : always requests_apart boot (leak n) /\ leaked n (run boot (leak n)).
Proof.
  induction n as [|n [A (L & S & M & K)]].
  - split; [exact I|]. repeat split; auto; [intros i r H; destruct i; discriminate|intros k []].
  - rewrite leak_snoc. set (w := run boot (leak n)) in *. set (k := mkKey (Z.of_nat (Datatypes.S n)) 1).
    assert (D : dget k (active w) = None).
    { destruct (dget k (active w)) eqn:E; [|reflexivity]. assert (I : In k (map fst (active w))) by (apply dget_in; congruence).
      apply K in I. change (trace_id k) with (Z.of_nat (Datatypes.S n)) in I. lia. }
    assert (U : in_flight (before_routing w k "r" 1 1) n = Some (mkReq k "r" InFlight)).
    { apply in_flight_spec. split; [|reflexivity]. cbn [before_routing reqs]. apply nth_snoc. auto. }
    split.
    + apply always_app. split; [exact A|]. fold w. cbn [leak_event always requests_apart]. split; [|auto]. intros i r [H Q]. rewrite (S i r H) in Q. discriminate.
    + unfold run. rewrite fold_left_app. fold (run boot (leak n)). fold w. cbn [leak_event fold_left]. fold k. cbn [step]. rewrite U.
      repeat split; cbn [before_routing reqs active].
      * rewrite modify_length, app_length, L. cbn [List.length]. lia.
      * intros i r H. apply modify_some in H as [[J H]|[-> (q & _ & ->)]]; [|reflexivity]. apply nth_snoc in H as [H|[H _]]; [eauto|congruence].
      * rewrite <- (map_length fst), keys_dset, D, app_length, map_length, M. cbn [List.length]. lia.
      * intros k' I. rewrite keys_dset, D in I. apply in_app_or in I as [I|[<-|[]]]; [apply K in I; lia|]. change (trace_id k) with (Z.of_nat (Datatypes.S n)). lia.
Qed.

(** ** Metadata *)
Definition readable (e : entry) : Prop := parent_of (e_key e) (e_meta e) <> None.
Definition all_readable (w : world) : Prop := forall n e, nth_error (entries w) n = Some e -> readable e.
Lemma before_push_cases w k : before_push w k = [] \/ exists z, before_push w k = [(receive_key, JNum z)].
Proof. unfold before_push. destruct (dget k (active w)); [|auto]. destruct (nth_error (spans w) n); [right; eauto|auto]. Qed.
Lemma readable_step w ev : all_readable w -> sane w ev -> all_readable (step w ev).
Proof.
  intros L S n e N.
  destruct ev as [k route nt ns|i dto others|i|i|m retries nt ns|a s|a|]; cbn [step] in N; try (apply (L n); exact N).
  - destruct (in_flight w i) as [r|]; [|apply (L n); exact N]. cbn [entries] in N. apply nth_snoc in N as [N|[_ ->]]; [apply (L n); exact N|].
    unfold readable, parent_of. cbn [e_key e_meta]. rewrite sget_supdate by exact S.
    destruct (before_push_cases w (r_key r)) as [->|[z ->]]; cbn [supdate fold_left sset sget fst snd]; [discriminate|]. rewrite String.eqb_refl. discriminate.
  - destruct (in_flight w i); apply (L n); exact N.
  - destruct (in_flight w i); apply (L n); exact N.
  - destruct (nth_error (entries w) m) as [e0|]; [|apply (L n); exact N]. unfold before_process in N. destruct (parent_of _ _) as [[]|]; apply (L n); exact N.
  - destruct (running w a); apply (L n); exact N.
  - destruct (running w a); apply (L n); exact N.
Qed.
Lemma readable_run es : always sane boot es -> all_readable (run boot es).
Proof. intros S. apply (always_inv sane all_readable); [intros; now apply readable_step|intros n e N; destruct n; discriminate|exact S]. Qed.
Lemma good_context t s : good_ids t s -> valid_context t s = true.
Proof. intros [[A B] [C D]]. unfold valid_context. rewrite !andb_true_iff. repeat split; apply Z.ltb_lt; assumption. Qed.
Lemma the_span_fun w f x y : the_span w f x -> the_span w f y -> x = y.
Proof. intros (n & N & X & U) (m & M & Y & _). assert (m = n) by eauto. subst. congruence. Qed.
Lemma the_span_intro P w f n x : basic P w -> nth_error (spans w) n = Some x -> sp_for x = f -> the_span w f x.
Proof. intros B N X. exists n. repeat split; auto. intros m y M Y. eapply (b_one P w B); eauto. congruence. Qed.
