(** What the files hold when the process dies in the middle of an event. *)
From Coq Require Import List ZArith NArith Bool String Lia Permutation.
From Coq Require Import ZifyBool ZifyNat ZifyN.
From Verif Require Import Base PermTac PQueueModel PQueueSpec PQueueProofs PQueueProofs2 PendingModel PendingSpec
  PendingProofs HandlerModel HandlerSpec HandlerProofs HandlerProofs2 HandlerProofs3 CrashModel.
Import ListNotations.
Local Open Scope Z_scope.

(** ** The page size never changes *)
Section Psz.
Context {V : Type}.
Implicit Types q : queue V.

Lemma psz_load q : psz (load_front_page q) = psz q. Proof. reflexivity. Qed.
Lemma psz_update q p : psz (update_back q p) = psz q. Proof. unfold update_back. destruct (back q); reflexivity. Qed.
Lemma psz_push q k v q' r : q_push q k v = Ok (q', r) -> psz q' = psz q.
Proof.
  unfold q_push. destruct (_ || _ || _); [intros E; injection E as <- <-; reflexivity|].
  destruct (_ <? _); [intros E; injection E as <- <-; apply psz_update|].
  destruct (back q); [|intros E; injection E as <- <-; reflexivity].
  unfold write_back_page. destruct (bulk_save _ _); cbn [bind]; [|discriminate].
  intros E; injection E as <- <-. reflexivity.
Qed.
Lemma psz_pop q q' r : q_pop q = Ok (q', r) -> psz q' = psz q.
Proof.
  unfold q_pop.
  assert (G : forall q1, psz q1 = psz q -> bind (page_pop_front (front q1)) (fun '(p, e) => Ok (set_front q1 p, e)) = Ok (q', r) ->
    psz q' = psz q).
  { intros q1 Hq. destruct (page_pop_front (front q1)) as [[p e]|]; cbn [bind]; [|discriminate].
    intros E; injection E as <- <-. exact Hq. }
  destruct (_ <? _); [now apply G|]. destruct (_ <? _); [apply G, psz_load|]. destruct (_ <? _); [apply (G (mkQueue _ _ _ _)); reflexivity|].
  intros E; injection E as <- <-. reflexivity.
Qed.
Lemma psz_pop_key q k q' r : q_pop_key q k = Ok (q', r) -> psz q' = psz q.
Proof.
  unfold q_pop_key. destruct (page_has _ _).
  { destruct (page_pop_entry _ _) as [[p o]|]; cbn [bind]; [|discriminate]. intros E; injection E as <- <-. reflexivity. }
  destruct (page_has _ _).
  { destruct (page_pop_entry _ _) as [[p o]|]; cbn [bind]; [|discriminate]. intros E; injection E as <- <-. apply psz_update. }
  destruct (get_record q k) as [[x|]|]; cbn [bind]; try discriminate; intros E; injection E as <- <-; reflexivity.
Qed.
Lemma psz_shut q q' : q_shut_down q = Ok q' -> psz q' = psz q.
Proof.
  assert (F : forall a b : queue V, write_front_page a = Ok b -> psz b = psz a).
  { intros a b. unfold write_front_page. destruct (bulk_save _ _); cbn [bind]; [|discriminate]. intros E; injection E as <-; reflexivity. }
  assert (B : forall a b : queue V, write_back_page a = Ok b -> psz b = psz a).
  { intros a b. unfold write_back_page. destruct (bulk_save _ _); cbn [bind]; [|discriminate]. intros E; injection E as <-; reflexivity. }
  unfold q_shut_down. destruct (back q).
  - destruct (_ <? _).
    + destruct (write_front_page q) as [q1|] eqn:E1; cbn [bind]; [|discriminate].
      destruct (_ <? _); intros E; [apply B in E; rewrite E; auto|injection E as <-; auto].
    + cbn [bind]. destruct (_ <? _); intros E; [now apply B|injection E as <-; auto].
  - destruct (_ <? _); intros E; [now apply F|injection E as <-; auto].
Qed.

(** At most two pages are outside the file. *)
Lemma in_memory q : reachable q -> 1 <= psz q ->
  Z.of_nat (List.length (contents q)) <= Z.of_nat (List.length (db q)) + 2 * psz q.
Proof.
  intros R H. destruct (reachable_inv q R) as [_ B]. destruct (B H) as [B1 B2]. unfold contents.
  rewrite !app_length, map_length. lia.
Qed.
End Psz.

Section Proofs.
Context {D M : Type}.
Variable no_meta : M.
Variables dto_ok truthy : D -> bool.
Variable max_retries : Z.
Notation item := (item D M). Notation hout := (hout D M). Notation hev := (hev D M). Notation hstate := (hstate D M).
Notation tstate := (tstate D M). Notation pentry := (pentry D M). Notation eentry := (eentry D M).
Notation files := (files (D:=D) (M:=M)). Notation pqueue := (pqueue D M).
Notation hstep := (@hstep D M no_meta dto_ok truthy max_retries).
Notation hrun := (@hrun D M no_meta dto_ok truthy max_retries).
Notation micros := (@micros D M dto_ok max_retries).
Notation hinv := (@hinv D M no_meta).
Notation crash_at := (@crash_at D M no_meta dto_ok truthy max_retries).
Notation lives := (@lives D M no_meta dto_ok truthy max_retries).
Implicit Types (s : hstate) (o : list hout) (q : pqueue).

Definition sizes q : Z * Z := (psz (pend q), psz (errq q)).

Lemma sizes_push q k d r m q' : push_pending no_meta q k d r m = Ok q' -> sizes q' = sizes q.
Proof.
  unfold push_pending. destruct (q_push _ _ _) as [[p x]|] eqn:E; cbn [bind]; [|discriminate].
  intros H; injection H as <-. apply psz_push in E. unfold sizes, set_pend. cbn [pend errq]. now rewrite E.
Qed.
Lemma sizes_push_error q k d r m q' : push_error no_meta q k d r m = Ok q' -> sizes q' = sizes q.
Proof.
  unfold push_error. destruct (q_push _ _ _) as [[p x]|] eqn:E; cbn [bind]; [|discriminate].
  intros H; injection H as <-. apply psz_push in E. unfold sizes, set_err. cbn [pend errq]. now rewrite E.
Qed.
Lemma sizes_pop q q' x : pop_pending q = Ok (q', x) -> sizes q' = sizes q.
Proof.
  unfold pop_pending. destruct (q_pop _) as [[p y]|] eqn:E; cbn [bind]; [|discriminate].
  intros H; injection H as <- <-. apply psz_pop in E. unfold sizes, set_pend. cbn [pend errq]. now rewrite E.
Qed.
Lemma sizes_err q e : psz e = psz (errq q) -> sizes (set_err q e) = sizes q.
Proof. intros E. unfold sizes, set_err. cbn [pend errq]. now rewrite E. Qed.
Lemma sizes_all : forall n q q', move_all_loop no_meta n q = Ok q' -> sizes q' = sizes q.
Proof.
  induction n as [|n IH]; intros q q'; cbn [move_all_loop]; destruct (_ <? _); try discriminate;
    try (intros E; injection E as <-; reflexivity).
  destruct (q_pop (errq q)) as [[e [[k x]|]]|] eqn:E; cbn [bind]; try discriminate.
  destruct (push_pending _ _ _ _ _ _) as [q1|] eqn:E1; cbn [bind]; [|discriminate]. intros H.
  rewrite (IH _ _ H), (sizes_push _ _ _ _ _ _ E1). apply sizes_err. now apply psz_pop in E.
Qed.

Lemma sizes_shut_check s : sizes (hq (fst (shut_down_check s))) = sizes (hq s).
Proof.
  unfold shut_down_check. destruct (_ && _); [|reflexivity].
  destruct (q_shut_down (pend (hq s))) as [p|] eqn:Ep; [|reflexivity].
  destruct (q_shut_down (errq (hq s))) as [e|] eqn:Ee.
  - apply psz_shut in Ep, Ee. destruct (fut_done _); unfold sizes; cbn; now rewrite Ep, Ee.
  - apply psz_shut in Ep. unfold sizes; cbn. now rewrite Ep.
Qed.
Lemma sizes_check s : sizes (hq (check_process s)) = sizes (hq s).
Proof. unfold check_process. repeat match goal with |- context [match ?x with _ => _ end] => destruct x end; reflexivity. Qed.
Lemma sizes_finish s i : sizes (hq (fst (finish_task s i))) = sizes (hq s).
Proof. unfold finish_task. rewrite sizes_shut_check. reflexivity. Qed.
Lemma sizes_loop s i : sizes (hq (fst (loop dto_ok s i))) = sizes (hq s).
Proof.
  unfold loop. destruct (_ && _); [|apply sizes_finish].
  destruct (pop_pending (hq s)) as [[q [e|]]|e] eqn:E; [destruct (dto_ok _)| |].
  - cbn. eapply sizes_pop; eauto.
  - pose proof (sizes_finish (set_hq s q) i) as X. destruct (finish_task (set_hq s q) i). cbn in *. rewrite X. eapply sizes_pop; eauto.
  - pose proof (sizes_finish (set_hq s q) i) as X. destruct (finish_task (set_hq s q) i). cbn in *. rewrite X. eapply sizes_pop; eauto.
  - pose proof (sizes_finish s i) as X. destruct (finish_task s i). exact X.
Qed.
Lemma sizes_hpush s x r : sizes (hq (fst (h_push_pending no_meta s x r))) = sizes (hq s).
Proof.
  unfold h_push_pending. destruct x as [[k d] m]. destruct (push_pending _ _ _ _ _ _) eqn:E; [|reflexivity].
  cbn. eapply sizes_push; eauto.
Qed.
Lemma sizes_settle s e b : sizes (hq (fst (settle no_meta max_retries s e b))) = sizes (hq s).
Proof.
  unfold settle. destruct b; [reflexivity|]. destruct (_ <=? _); [|apply sizes_hpush].
  unfold h_push_error, item_p. destruct (push_error _ _ _ _ _ _) eqn:E; [|reflexivity]. cbn. eapply sizes_push_error; eauto.
Qed.

Lemma hstep_sizes s ev : sizes (hq (fst (hstep s ev))) = sizes (hq s).
Proof.
  assert (Fin : forall i (f : list hout -> list hout), sizes (hq (fst (let (s', o) := finish_task s i in (s', f o)))) = sizes (hq s)).
  { intros i f. pose proof (sizes_finish s i) as X. destruct (finish_task s i). exact X. }
  destruct ev; cbn [HandlerModel.hstep].
  - destruct (recv_paused s); reflexivity.
  - destruct (nth_error _ _) as [[k d]|]; cbn [fst]; rewrite ?sizes_check; reflexivity.
  - destruct (nth_error _ _) as [[k d]|]; reflexivity.
  - destruct (nth_error _ _) as [x|]; [|reflexivity]. rewrite sizes_hpush. reflexivity.
  - destruct (nth_error _ _); reflexivity.
  - unfold task_step. destruct (nth_error _ _) as [t|]; [|reflexivity]. destruct t as [|e|e|e b|].
    + rewrite sizes_loop. reflexivity.
    + destruct r; [reflexivity|reflexivity|apply (Fin i (fun o => HLost (item_p e) :: HExn "user" :: o))].
    + destruct r; [reflexivity|reflexivity|apply (Fin i (fun o => HLost (item_p e) :: HExn "user" :: o))].
    + assert (G : sizes (hq (fst (let (s1, o1) := settle no_meta max_retries s e b in
                                          let (s2, o2) := loop dto_ok s1 i in (s2, o1 ++ o2)))) = sizes (hq s)).
      { pose proof (sizes_settle s e b) as X. destruct (settle no_meta max_retries s e b) as [s1 o1].
        pose proof (sizes_loop s1 i) as Y. destruct (loop dto_ok s1 i). cbn in *. congruence. }
      destruct r; [apply G|apply G|apply (Fin i (fun o => HLost (item_p e) :: HExn "user" :: o))].
    + reflexivity.
  - unfold cancel_task. destruct (nth_error _ _) as [t|]; [|reflexivity].
    destruct t; try reflexivity; apply (Fin i (fun o => HLost (item_p e) :: o)).
  - reflexivity.
  - cbn [fst]. rewrite sizes_check. reflexivity.
  - reflexivity.
  - cbn [fst]. rewrite sizes_check. reflexivity.
  - destruct (move_all no_meta (hq s)) eqn:E; cbn [fst]; rewrite ?sizes_check; [|reflexivity]. cbn. eapply sizes_all, E.
  - destruct (move_one no_meta (hq s) k) as [[q o]|] eqn:E; cbn [fst]; rewrite ?sizes_check; [|reflexivity]. cbn.
    unfold move_one in E. destruct (q_pop_key _ _) as [[e [x|]]|] eqn:E1; cbn [bind] in E; try discriminate; apply psz_pop_key in E1.
    + destruct (push_pending _ _ _ _ _ _) eqn:E2; cbn [bind] in E; [|discriminate]. injection E as <- <-.
      rewrite (sizes_push _ _ _ _ _ _ E2). now apply sizes_err.
    + injection E as <- <-. now apply sizes_err.
  - destruct (pop_error_key (hq s) k) as [[q o]|] eqn:E; cbn [fst]; [|reflexivity]. cbn.
    unfold pop_error_key in E. destruct (q_pop_key _ _) as [[e x]|] eqn:E1; cbn [bind] in E; [|discriminate].
    injection E as <- <-. apply psz_pop_key in E1. now apply sizes_err.
  - destruct (inspect_error_key _ _); reflexivity.
  - reflexivity.
  - rewrite sizes_shut_check. reflexivity.
Qed.

Lemma hrun_sizes evs : forall s s' o, hrun s evs = (s', o) -> sizes (hq s') = sizes (hq s).
Proof.
  induction evs as [|ev r IH]; intros s s' o E; cbn [HandlerModel.hrun] in E; [injection E as <- <-; reflexivity|].
  pose proof (hstep_sizes s ev) as X. destruct (hstep s ev) as [s1 o1].
  destruct (hrun s1 r) as [s2 o2] eqn:E2. injection E as <- <-. rewrite (IH _ _ _ E2). exact X.
Qed.

Lemma setup_sizes q : sizes (hq (setup q)) = sizes q.
Proof. unfold setup. rewrite sizes_check. cbn [set_proc hq]. rewrite sizes_check. reflexivity. Qed.

Lemma open_sizes ps (f : files) : fgood f -> sizes (pq_open ps (fst f) (snd f)) = (ps, ps).
Proof.
  intros [G1 [G2 [G3 G4]]]. destruct (open_pinv ps (fst f) (snd f) G1 G2 G3 G4) as [_ [_ [_ [A B]]]].
  unfold sizes. now rewrite A, B.
Qed.

(** ** What a crash leaves, against the abstract state *)
Record leaves (f : files) (a : ast (D:=D) (M:=M)) (n : Z) : Prop := mkLeaves {
  lf_good : fgood f;
  lf_p : incl (map kv (fst f)) (a_pend a);
  lf_e : incl (map kv (snd f)) (a_err a);
  lf_n : Z.of_nat (List.length (a_items a)) <= Z.of_nat (List.length (fst f)) + Z.of_nat (List.length (snd f)) + n }.

Lemma items_len a : List.length (a_items (D:=D) (M:=M) a) =
  (List.length (a_push a) + (List.length (a_pend a) + ((if a_in a then 1 else 0) + List.length (a_err a))))%nat.
Proof. unfold a_items, items_p, items_e. rewrite !app_length, !map_length. destruct (a_in a) as [[e ph]|]; reflexivity. Qed.

Lemma q_memory q ps : both q -> sizes q = (ps, ps) -> 1 <= ps ->
  Z.of_nat (List.length (pc q)) <= Z.of_nat (List.length (db (pend q))) + 2 * ps /\
  Z.of_nat (List.length (ec q)) <= Z.of_nat (List.length (db (errq q))) + 2 * ps.
Proof.
  intros [R1 R2] S H. unfold sizes in S. injection S as S1 S2.
  pose proof (in_memory _ R1) as A. pose proof (in_memory _ R2) as B. rewrite S1 in A. rewrite S2 in B. unfold pc, ec. lia.
Qed.

Lemma in_le (i : option (pentry * phase)) : 0 <= Z.of_nat (if i then 1 else 0) <= 1.
Proof. destruct i; lia. Qed.

Lemma leaves_db q ps ps1 i : pinv q -> both q -> sizes q = (ps, ps) -> 1 <= ps ->
  leaves (files_of q) (mkA ps1 (pc q) i (ec q)) (4 * ps + 1 + Z.of_nat (List.length ps1)).
Proof.
  intros P R S H. pose proof (q_memory q ps R S H) as [A B]. constructor.
  - now apply fgood_of.
  - apply db_part.
  - apply db_part.
  - rewrite items_len. cbn [a_push a_pend a_in a_err files_of fst snd]. pose proof (in_le i). lia.
Qed.

Lemma leaves_mono f a n n' : leaves f a n -> n <= n' -> leaves f a n'.
Proof. intros [A B C E] H. constructor; auto. lia. Qed.

Lemma crash_shut_len (V : Type) (q : queue V) t : inv q -> In t (crash_tables_shut_down q) ->
  (List.length (db q) <= List.length t)%nat.
Proof.
  intros H. unfold crash_tables_shut_down. intros [<-|Hin]; [lia|].
  apply in_app_iff in Hin as [Hin|Hin].
  - destruct (_ <? _); [|destruct Hin]. destruct (write_front_ok q) as [t1 [A [B C]]].
    + now destruct H.
    + pose proof (inv_nodup q H) as Hn. unfold contents in Hn. rewrite app_assoc, map_app in Hn. now apply NoDup_app_remove_r in Hn.
    + rewrite A in Hin. destruct Hin as [<-|[]]. cbn. apply (f_equal (@List.length _)) in B.
      rewrite app_length, !map_length in B. lia.
  - destruct (shut_down_ok q H) as [q2 [A [B C]]]. rewrite A in Hin. destruct Hin as [<-|[]].
    apply (f_equal (@List.length _)) in B. unfold contents in B. rewrite !app_length, !map_length in B. lia.
Qed.

Lemma leaves_shut q ps ps1 i f : pinv q -> both q -> sizes q = (ps, ps) -> 1 <= ps -> In f (crash_files_shut q) ->
  leaves f (mkA ps1 (pc q) i (ec q)) (4 * ps + 1 + Z.of_nat (List.length ps1)).
Proof.
  intros P R S H Hf. pose proof (q_memory q ps R S H) as [A B].
  assert (G : fgood f) by (eapply crash_shut_good; eauto).
  apply in_app_or in Hf as [Hf|Hf].
  - apply in_map_iff in Hf as [t [<- Ht]]. destruct (crash_shut_ok _ t (pi_p _ P) Ht) as [_ C].
    pose proof (crash_shut_len _ _ t (pi_p _ P) Ht) as L. constructor; auto; cbn [fst snd a_pend a_err]; auto; [apply db_part|].
    rewrite items_len. cbn [a_push a_pend a_in a_err fst snd]. pose proof (in_le i). lia.
  - destruct (q_shut_down (pend q)) as [p|] eqn:Ep; [|easy]. apply in_map_iff in Hf as [t [<- Ht]].
    destruct (crash_shut_ok _ t (pi_e _ P) Ht) as [_ C]. pose proof (crash_shut_len _ _ t (pi_e _ P) Ht) as L.
    destruct (shut_down_ok _ (pi_p _ P)) as [p2 [E1 [E2 _]]]. rewrite Ep in E1. injection E1 as <-.
    constructor; auto; cbn [fst snd a_pend a_err]; auto.
    + rewrite E2. apply incl_refl.
    + rewrite items_len. cbn [a_push a_pend a_in a_err fst snd]. pose proof (in_le i).
      apply (f_equal (@List.length _)) in E2. rewrite map_length in E2. unfold pc. lia.
Qed.

(** Moving all error entries: a prefix has been moved, possibly one more is in no file. *)
Lemma back_add (lp : list (N * pentry)) k y (l : list (N * eentry)) : ~ In k (map fst l) ->
  flat_map (back_outs (add lp k y)) l = flat_map (back_outs lp) l.
Proof.
  induction l as [|e l IH]; cbn [flat_map map]; intros H; [reflexivity|]. rewrite IH by (intros X; apply H; now right).
  f_equal. unfold back_outs. replace (has (fst e) (add lp k y)) with (has (fst e) lp); [reflexivity|].
  unfold add. destruct (has k lp); [reflexivity|]. rewrite has_app_snoc.
  assert (N.eqb k (fst e) = false) by (apply N.eqb_neq; intros ->; apply H; now left). now rewrite H0, orb_false_r.
Qed.

Lemma points_moved : forall n q f mv, pinv q -> psz (errq q) <> 0 -> In (f, mv) (move_all_points no_meta n q) ->
  incl (map fst mv) (map fst (ec q)).
Proof.
  induction n as [|n IH]; intros q f mv H Hp Hi; cbn [move_all_points] in Hi;
    (destruct Hi as [Hi|Hi]; [injection Hi as <- <-; apply incl_nil_l|]); destruct (0 <? error_size q) eqn:Es; try easy.
  destruct (ec q) as [|[k x] rest] eqn:Ec.
  { unfold error_size in Es. rewrite size_ok in Es by apply H. unfold ec in Ec. rewrite Ec in Es. discriminate. }
  destruct (move_all_step_ok no_meta q k x rest H Hp Ec) as [e [q1 [A [B [C [E [F [G I]]]]]]]]. rewrite A in Hi.
  destruct Hi as [Hi|Hi]; [injection Hi as <- <-; apply incl_nil_l|]. rewrite B in Hi.
  apply in_map_iff in Hi as [[f1 mv1] [X Hi]]. cbn [fst snd] in X. injection X as <- <-.
  apply IH in Hi; auto; [|congruence]. rewrite E in Hi. cbn [map fst]. intros y [->|Hy]; [now left|right; auto].
Qed.

Lemma points_ok ps ps1 i : forall n q f mv, pinv q -> both q -> sizes q = (ps, ps) -> 1 <= ps ->
  In (f, mv) (move_all_points no_meta n q) ->
  exists a, micros (mkA ps1 (pc q) i (ec q)) (flat_map (back_outs (pc q)) mv) a /\
    leaves f a (4 * ps + 2 + Z.of_nat (List.length ps1)).
Proof.
  induction n as [|n IH]; intros q f mv H R S Hp Hi; cbn [move_all_points] in Hi;
    (destruct Hi as [Hi|Hi];
      [injection Hi as <- <-; exists (mkA ps1 (pc q) i (ec q)); split; [constructor|eapply leaves_mono; [apply leaves_db; eauto|lia]]|]);
    destruct (0 <? error_size q) eqn:Es; try easy.
  assert (S0 := S). unfold sizes in S0. injection S0 as S1 S2.
  assert (Hz : psz (errq q) <> 0) by lia.
  destruct (ec q) as [|[k x] rest] eqn:Ec.
  { unfold error_size in Es. rewrite size_ok in Es by apply H. unfold ec in Ec. rewrite Ec in Es. discriminate. }
  destruct (move_all_step_ok no_meta q k x rest H Hz Ec) as [e [q1 [A [B [C [E [F [G I]]]]]]]]. rewrite A in Hi.
  assert (P1 : pinv (set_err q e)) by (eapply pop_err_inv; eauto).
  assert (R1 : both (set_err q e)) by (split; [apply R|]; eapply reach_pop; [apply R|exact A]).
  assert (Z1 : sizes (set_err q e) = (ps, ps)) by (rewrite sizes_err; [exact S|]; now apply psz_pop in A).
  assert (E1 : ec (set_err q e) = rest).
  { destruct (pop_ok (errq q) (pi_e _ H) (or_introl Hz)) as [e2 [X [_ [_ [Y _]]]]]. rewrite A in X. injection X as -> _.
    unfold ec, set_err. cbn [errq]. rewrite Y. unfold ec in Ec. now rewrite Ec. }
  destruct Hi as [Hi|Hi].
  - injection Hi as <- <-. exists (mkA ps1 (pc q) i ((k, x) :: rest)). split; [constructor|].
    destruct (leaves_db (set_err q e) ps ps1 i P1 R1 Z1 Hp) as [L1 L2 L3 L4]. rewrite E1 in *. constructor.
    + exact L1.
    + exact L2.
    + cbn [a_err] in *. intros y Hy. right. now apply L3.
    + rewrite items_len in *. cbn [a_push a_pend a_in a_err List.length files_of fst snd set_err pend errq] in *.
      unfold pc in *. cbn [set_err pend] in *. lia.
  - rewrite B in Hi. apply in_map_iff in Hi as [[f1 mv1] [X Hi]]. cbn [fst snd] in X. injection X as <- <-.
    pose proof (points_moved n q1 f1 mv1 C ltac:(congruence) Hi) as Inc.
    apply IH in Hi as [a [Ma La]]; auto.
    + exists a. split; [|exact La]. cbn [flat_map]. eapply micros_app.
      * apply micros_one. apply (mi_one dto_ok max_retries ps1 (pc q) i ((k, x) :: rest) k x). unfold lookup. cbn [find fst]. rewrite N.eqb_refl. reflexivity.
      * assert (Nk : ~ In k (map fst rest)).
        { pose proof (inv_nodup _ (pi_e _ H)) as Nd. unfold ec in Ec. rewrite Ec in Nd. cbn in Nd. now inversion Nd. }
        rewrite F, E, back_add in Ma by (rewrite E in Inc; intros Hk; apply Nk, Inc, Hk).
        replace (without k ((k, x) :: rest)) with rest; [exact Ma|].
        unfold without. cbn [filter fst]. rewrite N.eqb_refl. cbn [negb]. symmetry. now apply without_fresh.
    + eapply both_push; eauto.
    + rewrite (sizes_push _ _ _ _ _ _ B). exact Z1.
Qed.

End Proofs.
