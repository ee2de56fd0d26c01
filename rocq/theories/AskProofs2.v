(** Calls, attempts and connections together. *)
From Coq Require Import String Ascii ZArith NArith Bool List Arith Lia.
From Verif Require Import Base SpanKeyModel SpanKeySpec RouterModel JsonModel JsonSpec JsonProofs JsonProofs2 StreamModel StreamSpec StreamProofs
  ClientModel ClientSpec WireModel WireProofs AskModel AskSpec AskProofs.
Import ListNotations.

Section Net.
Context {D V : Type} (utf8 : list N -> bool) (dump : V -> json) (limit : nat) (max : Z) (accepted_resp : span_key -> V) (app : nat -> code D V).
Notation serve := (serve accepted_resp app).
Notation answer := (answer dump accepted_resp app).
Notation decode := (decode utf8).
Notation body := (body dump).
Notation net := (net D V).
Notation step := (AskModel.step utf8 dump limit max accepted_resp app).
Notation run := (AskModel.run utf8 dump limit max accepted_resp app).
Notation ConnInv := (ConnInv utf8 dump limit accepted_resp app).
Notation tst s i := (ClientModel.tst (calls (cl s) i)).
Notation tlog s i := (ClientModel.tlog (calls (cl s) i)).

(** What a call got from connection [c] is a beginning of the response, all of it unless the connection ended. *)
Definition Got (s : net) (i c : nat) (t : string) : Prop :=
  exists resp, l_ran (links s c) = [(asks s i, snd (serve c (asks s i)))] /\ fst (serve c (asks s i)) = Ret resp /\
    exists z, (t ++ z = body resp ++ lf)%string /\ (z = EmptyString \/ l_eof (links s c) = true).
Definition Mine (s : net) (i c : nat) : Prop := (c < nlinks s)%nat /\ l_call (links s c) = i.
Definition Done (s : net) (j : nat) : Prop := (j < ncalls (cl s))%nat /\ exists t, tst s j = TDone (OText t).
Definition CallOk (s : net) (i : nat) : Prop :=
  match tst s i with
  | TAttempt n => (0 <= n < max)%Z /\ Z.of_nat (List.length (tlog s i)) = n /\
      match phases s i with POpen => True | PRead c => Mine s i c | PClose c t => Mine s i c /\ Got s i c t | PIdle => False end
  | TSleep n => (0 <= n < max)%Z /\ Z.of_nat (List.length (tlog s i)) = n /\ phases s i = PIdle
  | TDone o => phases s i = PIdle /\ (Z.of_nat (List.length (tlog s i)) <= Z.max max 0)%Z /\
      match o with
      | OText t => exists c, Mine s i c /\ Got s i c t
      | ONone => (0 < max)%Z -> exists j, j <> i /\ Done s j
      | ORaw x => x = XCancel
      | _ => True
      end
  end.
Definition LinkOk (s : net) (c : nat) : Prop :=
  let l := links s c in
  (l_call l < ncalls (cl s))%nat /\
  match l_conn l with Some k => ConnInv (sent s (l_call l)) c k (l_fed l) (l_ran l) | None => l_ran l = [] end.
Definition busy (p : phase) : nat := match p with PRead _ | PClose _ _ => 1 | _ => 0 end.
Record Inv (s : net) : Prop := {
  v_links : forall c, (c < nlinks s)%nat -> LinkOk s c;
  v_calls : forall i, (i < ncalls (cl s))%nat -> CallOk s i;
  v_rest : forall i, (ncalls (cl s) <= i)%nat -> phases s i = PIdle /\ tst s i = TDone ONone;
  v_flag : success (cl s) = true -> exists j, Done s j;
  v_count : forall i, (i < ncalls (cl s))%nat -> (List.length (opened_by s i) <= List.length (tlog s i) + busy (phases s i))%nat }.

Lemma sent_line (s : net) i : is_line (sent s i).
Proof. apply text_line. Qed.
Lemma sent_head (s : net) i : hd 0%N (sent s i) <> 5%N.
Proof. discriminate. Qed.
Lemma sent_text (s : net) i : of_bytes (sent s i) = asks s i.
Proof. apply of_bytes_bytes. Qed.

(** What a state keeps of another. *)
Record Keeps (s s' : net) : Prop := {
  k_n : (nlinks s <= nlinks s')%nat;
  k_call : forall c, (c < nlinks s)%nat -> l_call (links s' c) = l_call (links s c);
  k_ran : forall c, (c < nlinks s)%nat -> l_ran (links s c) <> [] -> l_ran (links s' c) = l_ran (links s c);
  k_eof : forall c, (c < nlinks s)%nat -> l_eof (links s c) = true -> l_eof (links s' c) = true;
  k_calls : (ncalls (cl s) <= ncalls (cl s'))%nat;
  k_asked : forall i, (i < ncalls (cl s))%nat -> asked s' i = asked s i;
  k_done : forall j, Done s j -> Done s' j }.
Lemma keeps_asks s s' i : Keeps s s' -> (i < ncalls (cl s))%nat -> asks s' i = asks s i.
Proof. intros K H. unfold asks. now rewrite (k_asked _ _ K i H). Qed.
Lemma keeps_sent s s' i : Keeps s s' -> (i < ncalls (cl s))%nat -> sent s' i = sent s i.
Proof. intros K H. unfold sent. now rewrite (k_asked _ _ K i H). Qed.
Lemma keeps_mine s s' i c : Keeps s s' -> Mine s i c -> Mine s' i c.
Proof. intros K (H & E). split; [pose proof (k_n _ _ K); lia|]. now rewrite (k_call _ _ K). Qed.
Lemma keeps_got s s' i c t : Keeps s s' -> (i < ncalls (cl s))%nat -> (c < nlinks s)%nat -> Got s i c t -> Got s' i c t.
Proof.
  intros K H C (resp & R & S & z & E & Z). exists resp. rewrite (keeps_asks _ _ _ K H). rewrite (k_ran _ _ K c C); [|rewrite R; discriminate].
  split; [exact R|]. split; [exact S|]. exists z. split; [exact E|]. destruct Z as [Z|Z]; [auto|]. right. now apply (k_eof _ _ K).
Qed.
Lemma keeps_callok s s' i : Keeps s s' -> (i < ncalls (cl s))%nat -> calls (cl s') i = calls (cl s) i -> phases s' i = phases s i ->
  CallOk s i -> CallOk s' i.
Proof.
  intros K H E P. unfold CallOk. rewrite E, P. destruct (tst s i) as [n|n|o]; auto.
  - intros (A1 & A2 & A3). split; [exact A1|]. split; [exact A2|]. destruct (phases s i) as [|c|c t|]; auto.
    + now apply (keeps_mine s).
    + destruct A3 as (M & G). split; [now apply (keeps_mine s)|]. apply (keeps_got s); auto. apply M.
  - intros (A1 & A2 & A3). split; [exact A1|]. split; [exact A2|]. destruct o; auto.
    + destruct A3 as (c & M & G). exists c. split; [now apply (keeps_mine s)|]. apply (keeps_got s); auto. apply M.
    + intros M. destruct (A3 M) as (j & J1 & J2). exists j. split; [exact J1|]. now apply (k_done _ _ K).
Qed.
Lemma keeps_linkok s s' c : Keeps s s' -> (c < nlinks s)%nat -> links s' c = links s c -> LinkOk s c -> LinkOk s' c.
Proof.
  intros K C E (A1 & A2). unfold LinkOk. rewrite E. split; [pose proof (k_calls _ _ K); lia|]. now rewrite (keeps_sent _ _ _ K).
Qed.
Lemma opened_same (s s' : net) i : nlinks s' = nlinks s -> (forall c, (c < nlinks s)%nat -> l_call (links s' c) = l_call (links s c)) ->
  opened_by s' i = opened_by s i.
Proof.
  intros N E. unfold opened_by. rewrite N. apply filter_ext_in. intros c Hc. apply in_seq in Hc. rewrite E by lia. reflexivity.
Qed.

(** A connection changes. *)
Lemma link_inv s c l : Inv s -> (c < nlinks s)%nat -> l_call l = l_call (links s c) ->
  (l_ran (links s c) <> [] -> l_ran l = l_ran (links s c)) -> (l_eof (links s c) = true -> l_eof l = true) ->
  match l_conn l with Some k => ConnInv (sent s (l_call l)) c k (l_fed l) (l_ran l) | None => l_ran l = [] end ->
  Inv (set_link s c l).
Proof.
  intros I C E1 E2 E3 E4.
  assert (K : Keeps s (set_link s c l)).
  { constructor; cbn [set_link nlinks links cl asked]; auto; intros c'; unfold fupd; destruct (Nat.eqb_spec c' c) as [->|]; auto. }
  constructor; cbn [set_link nlinks cl phases].
  - intros c' C'. destruct (Nat.eq_dec c' c) as [->|Ne].
    + split; cbn [set_link links cl]; unfold fupd; rewrite Nat.eqb_refl; [rewrite E1; now apply (v_links _ I)|exact E4].
    + apply (keeps_linkok s); auto; [|now apply (v_links _ I)]. cbn [set_link links]. unfold fupd. apply Nat.eqb_neq in Ne. now rewrite Ne.
  - intros i H. apply (keeps_callok s); auto. now apply (v_calls _ I).
  - apply (v_rest _ I).
  - apply (v_flag _ I).
  - intros i H. rewrite (opened_same s); [now apply (v_count _ I)|reflexivity|]. apply (k_call _ _ K).
Qed.

(** A call changes. *)
Lemma fupd_same {X} (f : nat -> X) i x : fupd f i x i = x.
Proof. unfold fupd. now rewrite Nat.eqb_refl. Qed.
Lemma fupd_other {X} (f : nat -> X) i j x : j <> i -> fupd f i x j = f j.
Proof. intros H. unfold fupd. apply Nat.eqb_neq in H. now rewrite H. Qed.
Lemma call_inv s i c' p b : Inv s -> (i < ncalls (cl s))%nat ->
  let s' := mkNet (mkClient b (ncalls (cl s)) (fupd (calls (cl s)) i c')) (asked s) (fupd (phases s) i p) (nlinks s) (links s) in
  (forall t, tst s i <> TDone (OText t)) -> (b = true -> success (cl s) = true \/ exists t, ClientModel.tst c' = TDone (OText t)) ->
  (Keeps s s' -> CallOk s' i) -> (List.length (opened_by s i) <= List.length (ClientModel.tlog c') + busy p)%nat ->
  Inv s'.
Proof.
  intros I H s' N B O L.
  assert (DJ : forall j, Done s j -> Done s' j).
  { intros j (J & t & T). split; [exact J|]. exists t. destruct (Nat.eq_dec j i) as [->|Ne]; [elim (N t T)|]. unfold s'. cbn [cl calls]. now rewrite fupd_other. }
  assert (K : Keeps s s') by (constructor; auto).
  constructor; unfold s'; cbn [cl ncalls nlinks phases success].
  - intros c C. apply (keeps_linkok s); auto. now apply (v_links _ I).
  - intros j J. destruct (Nat.eq_dec j i) as [->|Ne]; [exact (O K)|]. apply (keeps_callok s); auto; [cbn; now rewrite fupd_other|cbn; now rewrite fupd_other|now apply (v_calls _ I)].
  - intros j J. cbn [calls]. rewrite !fupd_other by lia. now apply (v_rest _ I).
  - intros ->. destruct (B eq_refl) as [S|(t & T)].
    + destruct (v_flag _ I S) as (j & J). exists j. now apply DJ.
    + exists i. split; [exact H|]. exists t. cbn [calls cl]. now rewrite fupd_same.
  - intros j J. change (List.length (opened_by s' j) <= List.length (ClientModel.tlog (fupd (calls (cl s)) i c' j)) + busy (fupd (phases s) i p j))%nat.
    rewrite (opened_same s s') by auto. destruct (Nat.eq_dec j i) as [->|Ne]; [rewrite !fupd_same; exact L|]. rewrite !fupd_other by exact Ne. now apply (v_count _ I).
Qed.
Lemma live_call s i : Inv s -> phases s i <> PIdle -> (i < ncalls (cl s))%nat.
Proof. intros I P. destruct (le_lt_dec (ncalls (cl s)) i) as [L|L]; [|exact L]. elim P. now apply (v_rest _ I). Qed.
Lemma busy_attempt s i : Inv s -> phases s i <> PIdle -> exists n, tst s i = TAttempt n /\ (0 <= n < max)%Z /\ Z.of_nat (List.length (tlog s i)) = n /\
  match phases s i with POpen => True | PRead c => Mine s i c | PClose c t => Mine s i c /\ Got s i c t | PIdle => False end.
Proof.
  intros I P. pose proof (v_calls _ I i (live_call s i I P)) as C. unfold CallOk in C. destruct (tst s i) as [n|n|o].
  - exists n. tauto.
  - destruct C as (_ & _ & C). contradiction.
  - destruct C as (C & _). contradiction.
Qed.
Lemma busy_le p : (busy p <= 1)%nat.
Proof. destruct p; cbn; lia. Qed.
(** An attempt ends. *)
Lemma out_inv s i o : Inv s -> phases s i <> PIdle -> (forall t, o = AGot t -> exists c, phases s i = PClose c t) ->
  Inv (tell max s i (EOut i o)).
Proof.
  intros I P G. pose proof (live_call s i I P) as H. destruct (busy_attempt s i I P) as (n & T & R & Ln & Ph).
  pose proof (v_count _ I i H) as CN. pose proof (busy_le (phases s i)) as BL.
  assert (NT : forall t, tst s i <> TDone (OText t)) by (intros t; rewrite T; discriminate).
  unfold tell, cstep1. unfold ClientModel.step, live. apply Nat.ltb_lt in H as HL. rewrite HL, T.
  assert (LL : forall a, List.length (tlog s i ++ [a]) = S (List.length (tlog s i))) by (intros a; rewrite app_length; cbn; lia).
  assert (CF : forall st, Inv (mkNet (mkClient (success (cl s)) (ncalls (cl s)) (fupd (calls (cl s)) i (mkCall st (tlog s i ++ [o])))) (asked s)
      (fupd (phases s) i PIdle) (nlinks s) (links s)) \/ ~ (match st with TSleep m => m = (n + 1)%Z /\ (m < max)%Z | TDone OMax => True | TDone (ONonRetry _) => True | TDone (ORaw XCancel) => True | _ => False end)).
  { intros st. destruct st as [m|m|[r| | |x|x]]; try (right; intros []; fail).
    - destruct (Z.eq_dec m (n + 1)) as [->|Ne]; [|right; lia]. destruct (Z_lt_dec (n + 1) max); [|right; lia]. left.
      apply (call_inv s i); auto.
      + intros K. unfold CallOk. cbn [cl calls phases]. rewrite !fupd_same. cbn [ClientModel.tst ClientModel.tlog]. rewrite LL. repeat split; auto; lia.
      + cbn [ClientModel.tlog busy]. rewrite LL. repeat split; auto; lia.
    - left. apply (call_inv s i); auto.
      + intros K. unfold CallOk. cbn [cl calls phases]. rewrite !fupd_same. cbn [ClientModel.tst ClientModel.tlog]. rewrite LL. repeat split; auto; lia.
      + cbn [ClientModel.tlog busy]. rewrite LL. repeat split; auto; lia.
    - left. apply (call_inv s i); auto.
      + intros K. unfold CallOk. cbn [cl calls phases]. rewrite !fupd_same. cbn [ClientModel.tst ClientModel.tlog]. rewrite LL. repeat split; auto; lia.
      + cbn [ClientModel.tlog busy]. rewrite LL. repeat split; auto; lia.
    - destruct x; try (right; intros []; fail). left. apply (call_inv s i); auto.
      + intros K. unfold CallOk. cbn [cl calls phases]. rewrite !fupd_same. cbn [ClientModel.tst ClientModel.tlog]. rewrite LL. split; [reflexivity|]. split; [lia|reflexivity].
      + cbn [ClientModel.tlog busy]. rewrite LL. lia. }
  destruct o as [t|x].
  - destruct (G t eq_refl) as (c & Pc). rewrite Pc in Ph. destruct Ph as (M & Gt). unfold set_call. cbn [cl calls success ncalls rephase]. unfold rephase. cbn [calls]. rewrite fupd_same. cbn [ClientModel.tst].
    apply (call_inv s i); auto.
    + intros _. right. exists t. reflexivity.
    + intros K. unfold CallOk. cbn [cl calls phases]. rewrite !fupd_same. cbn [ClientModel.tst ClientModel.tlog]. rewrite LL. split; [reflexivity|]. split; [lia|].
      exists c. split; [now apply (keeps_mine s)|]. apply (keeps_got s); auto. apply M.
    + cbn [ClientModel.tlog busy]. rewrite LL. lia.
  - assert (FIN : forall st, (match st with TSleep m => m = (n + 1)%Z /\ (m < max)%Z | TDone OMax => True | TDone (ONonRetry _) => True | TDone (ORaw XCancel) => True | _ => False end) ->
      Inv (let c := set_call (cl s) i (mkCall st (tlog s i ++ [AFail x])) in mkNet c (asked s) (fupd (phases s) i (rephase c i)) (nlinks s) (links s))).
    { intros st Q. destruct (CF st) as [V1|V1]; [|contradiction]. cbv zeta. unfold set_call, rephase. cbn [calls]. rewrite fupd_same. cbn [ClientModel.tst].
      destruct st as [m|m|oo]; [destruct Q|exact V1|exact V1]. }
    destruct x; cbn [stream_retries]; try (apply FIN; exact Logic.I); destruct (Z.leb_spec max (n + 1)); apply FIN; auto; lia.
Qed.
(** A sleeping call wakes up or is cancelled. *)
Lemma idle_inv s i e : Inv s -> phases s i = PIdle -> e = EWake i \/ e = ECancel i -> Inv (tell max s i e).
Proof.
  intros I P E.
  assert (SAME : forall c, c = cl s -> rephase c i = PIdle -> Inv (mkNet c (asked s) (fupd (phases s) i (rephase c i)) (nlinks s) (links s))).
  { intros c -> RP. rewrite RP.
    assert (K : Keeps s (mkNet (cl s) (asked s) (fupd (phases s) i PIdle) (nlinks s) (links s))) by (constructor; auto).
    assert (F : forall j, fupd (phases s) i PIdle j = phases s j) by (intros j; destruct (Nat.eq_dec j i) as [->|]; [rewrite fupd_same; auto|now rewrite fupd_other]).
    constructor; cbn [cl nlinks phases].
    - intros c C. apply (keeps_linkok s); auto. now apply (v_links _ I).
    - intros j J. apply (keeps_callok s); [exact K|exact J|reflexivity|apply F|exact (v_calls _ I j J)].
    - intros j J. rewrite F. now apply (v_rest _ I).
    - apply (v_flag _ I).
    - intros j J. rewrite F. rewrite (opened_same s) by auto. now apply (v_count _ I). }
  unfold tell, cstep1. destruct (lt_dec i (ncalls (cl s))) as [H|H].
  2:{ assert (LF : Nat.ltb i (ncalls (cl s)) = false) by (apply Nat.ltb_ge; lia).
      assert (E' : ClientModel.step max stream_retries true (cl s) e = cl s) by (destruct E as [->| ->]; cbn [ClientModel.step]; unfold live; now rewrite LF).
      rewrite E'. cbv zeta. apply SAME; [reflexivity|]. unfold rephase. now rewrite (proj2 (v_rest _ I i ltac:(lia))). }
  pose proof (v_calls _ I i H) as C. pose proof (v_count _ I i H) as CN. rewrite P in CN. cbn [busy] in CN. apply Nat.ltb_lt in H as HL. unfold CallOk in C. rewrite P in C.
  destruct (tst s i) as [n|n|o] eqn:T; [destruct C as (_ & _ & []) | |].
  2:{ assert (E' : ClientModel.step max stream_retries true (cl s) e = cl s) by (destruct E as [->| ->]; cbn [ClientModel.step]; unfold live; now rewrite HL, T).
      rewrite E'. cbv zeta. apply SAME; [reflexivity|]. unfold rephase. now rewrite T. }
  destruct C as (R & Ln & _).
  assert (NT : forall t, tst s i <> TDone (OText t)) by (intros t; rewrite T; discriminate).
  destruct E as [->| ->]; cbn [ClientModel.step]; unfold live; rewrite HL, T; unfold set_call, rephase; cbn [calls]; rewrite fupd_same; cbn [ClientModel.tst].
  - unfold loop_test. assert (LT : Z.ltb n max = true) by (apply Z.ltb_lt; lia). rewrite LT. cbn [andb]. destruct (success (cl s)) eqn:SU; cbn [negb].
    + apply (call_inv s i); auto.
      intros K. unfold CallOk. cbn [cl calls phases]. rewrite !fupd_same. cbn [ClientModel.tst ClientModel.tlog]. split; [reflexivity|]. split; [lia|].
      intros _. destruct (v_flag _ I SU) as (j & J). exists j. split; [|now apply (k_done _ _ K)]. intros ->. destruct J as (_ & t & Tj). congruence.
    + apply (call_inv s i); auto; [rewrite SU; discriminate|].
      intros K. unfold CallOk. cbn [cl calls phases]. rewrite !fupd_same. cbn [ClientModel.tst ClientModel.tlog]. auto.
  - apply (call_inv s i); auto.
    intros K. unfold CallOk. cbn [cl calls phases]. rewrite !fupd_same. cbn [ClientModel.tst ClientModel.tlog]. split; [reflexivity|]. split; [lia|reflexivity].
Qed.
(** A call begins. *)
Lemma start_inv s r : Inv s -> Inv (step s (NStart r)).
Proof.
  intros I. cbn [AskModel.step]. unfold tell, cstep1. cbn [cl asked phases nlinks links ClientModel.step ncalls].
  set (i := ncalls (cl s)). set (c0 := mkClient false (S i) (calls (cl s))). set (s' := mkNet _ _ _ _ _).
  assert (DJ : forall j, Done s j -> Done s' j).
  { intros j (J & t & T). split; [cbn; fold i in J; lia|]. exists t. unfold s'. cbn [cl set_call calls c0 ncalls Nat.pred]. rewrite fupd_other by (fold i in J; lia). exact T. }
  assert (K : Keeps s s').
  { constructor; auto; [cbn; fold i; lia|]. intros j J. cbn [s' asked]. rewrite fupd_other by (fold i in J; lia). reflexivity. }
  constructor.
  - intros c C. apply (keeps_linkok s); auto. now apply (v_links _ I).
  - intros j J. cbn in J. destruct (Nat.eq_dec j i) as [->|Ne].
    + unfold CallOk, s'. cbn [cl set_call calls c0 ncalls Nat.pred phases]. rewrite !fupd_same. unfold rephase. cbn [calls set_call c0 ncalls Nat.pred]. rewrite fupd_same. cbn [ClientModel.tst ClientModel.tlog].
      unfold loop_test. cbn [success andb negb]. rewrite Bool.andb_true_r. destruct (Z.ltb_spec 0 max).
      * cbn. repeat split; lia.
      * cbn. repeat split; lia.
    + assert (J' : (j < ncalls (cl s))%nat) by (fold i; lia). apply (keeps_callok s); auto; [| |now apply (v_calls _ I)].
      * unfold s'. cbn [cl set_call calls c0 ncalls Nat.pred]. now rewrite fupd_other.
      * unfold s'. cbn [phases]. now rewrite fupd_other.
  - intros j J. cbn in J. unfold s'. cbn [cl set_call calls c0 ncalls Nat.pred phases]. rewrite !fupd_other by lia. apply (v_rest _ I). fold i. lia.
  - cbn. discriminate.
  - intros j J. cbn in J. rewrite (opened_same s s') by auto. unfold s'. cbn [cl set_call calls c0 ncalls Nat.pred phases]. destruct (Nat.eq_dec j i) as [->|Ne].
    + rewrite !fupd_same. unfold opened_by. enough (E : filter (fun c => Nat.eqb (l_call (links s c)) i) (seq 0 (nlinks s)) = []) by (rewrite E; cbn; lia).
      assert (G : forall l, (forall c, In c l -> (c < nlinks s)%nat) -> filter (fun c => Nat.eqb (l_call (links s c)) i) l = []).
      { induction l as [|c l IH]; intros Hl; [reflexivity|]. cbn [filter]. destruct (v_links _ I c (Hl c (or_introl eq_refl))) as (Lc & _). fold i in Lc.
        assert (Q : Nat.eqb (l_call (links s c)) i = false) by (apply Nat.eqb_neq; lia). rewrite Q. apply IH. intros c' Hc. apply Hl. now right. }
      apply G. intros c Hc. apply in_seq in Hc. lia.
    + rewrite !fupd_other by exact Ne. apply (v_count _ I). fold i. lia.
Qed.
(** A connection is opened. *)
Lemma opened_inv s i b : Inv s -> phases s i = POpen -> Inv (step s (NOpened i b)).
Proof.
  intros I P. cbn [AskModel.step]. rewrite P. set (s' := mkNet _ _ _ _ _).
  assert (P' : phases s i <> PIdle) by (rewrite P; discriminate). pose proof (live_call s i I P') as H.
  destruct (busy_attempt s i I P') as (n & T & R & Ln & _).
  assert (K : Keeps s s').
  { constructor; auto; try (intros c C; cbn [s' links]; rewrite fupd_other by lia; auto). cbn. lia. }
  constructor.
  - intros c C. cbn in C. destruct (Nat.eq_dec c (nlinks s)) as [->|Ne].
    + unfold LinkOk, s'. cbn [links]. rewrite fupd_same. cbn [l_call l_conn l_fed l_ran cl]. split; [exact H|]. destruct b; [|reflexivity].
      split; [lia|]. left. split; [reflexivity|]. apply accept_W.
    + apply (keeps_linkok s); auto; [lia| |apply (v_links _ I); lia]. cbn [s' links]. now rewrite fupd_other.
  - intros j J. cbn in J. destruct (Nat.eq_dec j i) as [->|Ne].
    + unfold CallOk, s'. cbn [cl phases]. rewrite fupd_same, T. split; [exact R|]. split; [exact Ln|]. split; cbn; [lia|]. now rewrite fupd_same.
    + apply (keeps_callok s); auto; [|now apply (v_calls _ I)]. cbn [s' phases]. now rewrite fupd_other.
  - intros j J. cbn [s' phases cl] in *. rewrite fupd_other; [now apply (v_rest _ I)|lia].
  - apply (v_flag _ I).
  - intros j J. cbn [s' cl] in J. pose proof (v_count _ I j J) as CN.
    assert (E : opened_by s' j = opened_by s j ++ (if Nat.eqb i j then [nlinks s] else [])).
    { unfold opened_by, s'. cbn [nlinks links]. rewrite seq_S, filter_app. cbn [filter]. rewrite Nat.add_0_l, fupd_same. cbn [l_call]. f_equal.
      apply filter_ext_in. intros c Hc. apply in_seq in Hc. now rewrite fupd_other by lia. }
    rewrite E, app_length. unfold s'. cbn [cl phases]. destruct (Nat.eqb_spec i j) as [->|Ne].
    + rewrite fupd_same. rewrite P in CN. cbn [busy List.length] in *. lia.
    + rewrite fupd_other by congruence. cbn [List.length]. lia.
Qed.
(** A line has been read. *)
Lemma index_firstn : forall (b : list N) n j, index n b = Some j -> firstn (j - n + 1) b <> [] /\ (n <= j)%nat.
Proof. induction b as [|x b IH]; intros n j; cbn [index]; [discriminate|]. destruct (N.eqb x LF); [intros [= <-]; split; [rewrite Nat.sub_diag; discriminate|lia]|].
  intros E. destruct (IH _ _ E) as (A & B). split; [|lia]. replace (j - n + 1)%nat with (S (j - S n + 1)) by lia. discriminate. Qed.
Lemma read_got s i c f d t : Inv s -> Mine s i c -> read_result limit (links s c) f = Some (inl d) -> d <> [] -> decode d = Some t -> Got s i c t.
Proof.
  intros I (C & M) E ND Dt. destruct (v_links _ I c C) as (_ & LK).
  assert (E' : readline limit (firstn (l_seen (links s c)) (written (links s c))) (l_eof (links s c)) = Some (inl d)).
  { unfold read_result in E. destruct (l_err (links s c)); [|exact E]. destruct (readline _ _ _); [|discriminate]. destruct f; [exact E|discriminate]. }
  clear E. unfold written in E'. set (b := firstn _ _) in E'.
  assert (PD : exists z, d ++ z = match l_conn (links s c) with Some k => List.concat (cout k) | None => [] end /\ (In 10%N d \/ l_eof (links s c) = true)).
  { unfold readline in E'. destruct (index 0 b) as [j|] eqn:IX.
    - destruct (Nat.ltb limit j); [discriminate|]. injection E' as <-. destruct (index_some _ _ _ IX) as (x & y & Eb & _ & Ej). cbn [Nat.add] in Ej.
      exists (skipn (S j) b ++ skipn (l_seen (links s c)) (match l_conn (links s c) with Some k => List.concat (cout k) | None => [] end)).
      split. { rewrite app_assoc. etransitivity; [|apply (firstn_skipn (l_seen (links s c)))]. f_equal. exact (firstn_skipn (S j) b). }
      left. change (In 10%N (firstn (S j) b)). rewrite Eb. rewrite firstn_app, Ej.
      replace (S (List.length x) - List.length x)%nat with 1%nat by lia. apply in_or_app. right. now left.
    - destruct (Nat.ltb _ _); [discriminate|]. destruct (l_eof (links s c)) eqn:Eo; [|discriminate]. injection E' as <-. eexists. split; [apply firstn_skipn|auto]. }
  destruct PD as (z & Ez & Q).
  destruct (l_conn (links s c)) as [k|]; [|destruct d; [congruence|discriminate]].
  destruct LK as (_ & [(_ & (O & _))|(R & _ & _ & [(O & _)|(r & Sr & O)])]); [rewrite O in Ez; destruct d; [congruence|discriminate]|rewrite O in Ez; destruct d; [congruence|discriminate]|].
  rewrite M, sent_text in R, Sr. exists r. split; [exact R|]. split; [exact Sr|]. rewrite O in Ez. cbn [List.concat] in Ez. rewrite app_nil_r in Ez.
  unfold AskModel.decode in Dt. destruct (utf8 d); [|discriminate]. injection Dt as <-.
  assert (EB : bytes (body r) ++ [10%N] = bytes (body r ++ lf)) by (rewrite bytes_app; reflexivity). rewrite EB in Ez.
  exists (of_bytes z). split.
  - rewrite <- (of_bytes_bytes (body r ++ lf)), <- Ez. unfold of_bytes. rewrite map_app. clear. induction (map ascii_of_N d) as [|a l IH]; [reflexivity|]. cbn. now rewrite IH.
  - destruct Q as [Q|Q]; [|auto]. left. assert (z = []) as ->; [|reflexivity].
    apply (line_prefix (bytes (body r ++ lf)) (text_line _) ltac:(discriminate) d z); [now symmetry|exact Q].
Qed.
Lemma close_inv s i c t : Inv s -> phases s i = PRead c -> Got s i c t -> Inv (set_phase s i (PClose c t)).
Proof.
  intros I P G. assert (P' : phases s i <> PIdle) by (rewrite P; discriminate). pose proof (live_call s i I P') as H.
  destruct (busy_attempt s i I P') as (n & T & R & Ln & M). rewrite P in M.
  assert (K : Keeps s (set_phase s i (PClose c t))) by (constructor; auto).
  constructor.
  - intros c' C'. apply (keeps_linkok s); auto. now apply (v_links _ I).
  - intros j J. destruct (Nat.eq_dec j i) as [->|Ne].
    + unfold CallOk. cbn [set_phase cl phases]. rewrite fupd_same, T. split; [exact R|]. split; [exact Ln|]. split; [exact M|exact G].
    + apply (keeps_callok s); auto; [|now apply (v_calls _ I)]. cbn [set_phase phases]. now rewrite fupd_other.
  - intros j J. cbn [set_phase cl phases] in *. rewrite fupd_other by lia. now apply (v_rest _ I).
  - apply (v_flag _ I).
  - intros j J. pose proof (v_count _ I j J) as CN. rewrite (opened_same s) by auto. cbn [set_phase cl phases]. destruct (Nat.eq_dec j i) as [->|Ne].
    + rewrite fupd_same. rewrite P in CN. exact CN.
    + rewrite fupd_other by exact Ne. exact CN.
Qed.
Lemma step_inv s e : Inv s -> Inv (step s e).
Proof.
  intros I. destruct e as [r|i b|i x|c n|c|c|c|c n|c|c x|i f|i|i x|i|i].
  - now apply start_inv.
  - destruct (phases s i) eqn:P; try (cbn [AskModel.step]; rewrite P; exact I). now apply opened_inv.
  - cbn [AskModel.step]. destruct (phases s i) eqn:P; try exact I. apply out_inv; [exact I|rewrite P; discriminate|discriminate].
  - cbn [AskModel.step]. destruct (Nat.ltb_spec c (nlinks s)) as [C|]; [|exact I]. destruct (v_links _ I c C) as (A1 & A2).
    destruct (l_conn (links s c)) as [k|] eqn:Ek; [|exact I]. destruct (ceof k) eqn:Ec; [exact I|].
    apply link_inv; auto. cbn [with_conn l_conn l_call l_fed l_ran]. apply feed_inv; auto; [apply sent_line|apply sent_head].
  - cbn [AskModel.step]. destruct (Nat.ltb_spec c (nlinks s)) as [C|]; [|exact I]. destruct (v_links _ I c C) as (A1 & A2). unfold server_event.
    destruct (l_conn (links s c)) as [k|] eqn:Ek; [|exact I].
    apply link_inv; auto. cbn [with_conn l_conn l_call l_fed l_ran]. apply eof_inv; auto; [apply sent_line|apply sent_head].
  - cbn [AskModel.step]. destruct (Nat.ltb_spec c (nlinks s)) as [C|]; [|exact I]. destruct (v_links _ I c C) as (A1 & A2). unfold server_event.
    destruct (l_conn (links s c)) as [k|] eqn:Ek; [|exact I].
    apply link_inv; auto. cbn [with_conn l_conn l_call l_fed l_ran]. apply reset_inv; auto.
  - cbn [AskModel.step]. destruct (Nat.ltb_spec c (nlinks s)) as [C|]; [|exact I]. destruct (v_links _ I c C) as (A1 & A2).
    destruct (l_conn (links s c)) as [k|] eqn:Ek; [|exact I]. destruct (cst k) as [|t| |] eqn:St; try exact I.
    destruct (done_inv utf8 dump limit accepted_resp app _ _ k _ _ t A2 St) as (-> & Rn & Q).
    apply link_inv; auto.
    + rewrite Rn. congruence.
    + cbn [with_conn l_conn l_call l_fed l_ran]. rewrite Rn. exact Q.
  - cbn [AskModel.step]. destruct (Nat.ltb_spec c (nlinks s)) as [C|]; [|exact I]. destruct (negb _); [|exact I]. destruct (v_links _ I c C) as (A1 & A2).
    apply link_inv; auto.
  - cbn [AskModel.step]. destruct (Nat.ltb_spec c (nlinks s)) as [C|]; [|exact I]. destruct (v_links _ I c C) as (A1 & A2).
    apply link_inv; auto.
  - cbn [AskModel.step]. destruct (Nat.ltb_spec c (nlinks s)) as [C|]; [|exact I]. destruct (v_links _ I c C) as (A1 & A2).
    apply link_inv; auto.
  - cbn [AskModel.step]. destruct (phases s i) as [|c|c t|] eqn:P; try exact I. assert (P' : phases s i <> PIdle) by (rewrite P; discriminate).
    destruct (read_result limit (links s c) f) as [[d|x]|] eqn:E; [|apply out_inv; [exact I|exact P'|discriminate]|exact I].
    destruct d as [|b d]; [apply out_inv; [exact I|exact P'|discriminate]|].
    destruct (decode (b :: d)) as [t|] eqn:Dt; [|apply out_inv; [exact I|exact P'|discriminate]].
    apply close_inv; auto. destruct (busy_attempt s i I P') as (n & _ & _ & _ & M). rewrite P in M. eapply read_got; eauto. discriminate.
  - cbn [AskModel.step]. destruct (phases s i) eqn:P; try exact I. apply out_inv; [exact I|rewrite P; discriminate|discriminate].
  - cbn [AskModel.step]. destruct (phases s i) eqn:P; try exact I. apply out_inv; [exact I|rewrite P; discriminate|].
    intros t' E. exists c. destruct x; [discriminate|]. injection E as <-. exact P.
  - cbn [AskModel.step]. destruct (phases s i) eqn:P; try (apply out_inv; [exact I|rewrite P; discriminate|discriminate]). apply idle_inv; auto.
  - cbn [AskModel.step]. destruct (phases s i) eqn:P; try exact I. apply idle_inv; auto.
Qed.
Lemma fresh_inv : Inv fresh.
Proof. constructor; cbn; auto; try lia; discriminate. Qed.
Theorem run_inv es : Inv (run es).
Proof. unfold AskModel.run. induction es as [|e es IH] using rev_ind; [apply fresh_inv|]. rewrite fold_left_app. cbn [fold_left]. now apply step_inv. Qed.
End Net.
