(** Proofs about what is set up and where. *)
From Coq Require Import List ZArith Bool String Ascii Lia.
From Verif Require Import Base RouterModel RouterProofs RouterProofs2 ConfigSpec ConfigProofs2 FilesModel FilesSpec.
Import ListNotations.
Local Open Scope string_scope.

(** ** Texts *)
Lemma app_empty (s : string) : s ++ "" = s.
Proof. induction s as [|c s IH]; [reflexivity|]. cbn [append]. now rewrite IH. Qed.
Lemma app_assoc_s (a b c : string) : (a ++ b) ++ c = a ++ b ++ c.
Proof. induction a as [|x a IH]; [reflexivity|]. cbn [append]. now rewrite IH. Qed.
Lemma cancel_left (a b c : string) : a ++ b = a ++ c -> b = c.
Proof. induction a as [|x a IH]; [auto|]. cbn [append]. intros H. injection H as H. auto. Qed.
Lemma first_sep c a b a' b' : without c a -> without c a' -> a ++ String c b = a' ++ String c b' -> a = a' /\ b = b'.
Proof.
  revert a'. induction a as [|x a IH]; intros a' W W' H; destruct a' as [|y a'].
  - injection H as H. auto.
  - injection H as -> _. apply without_cons in W' as [W' _]. congruence.
  - injection H as -> _. apply without_cons in W as [W _]. congruence.
  - injection H as -> H. apply without_cons in W as [_ W], W' as [_ W']. destruct (IH a' W W' H) as [-> ->]. auto.
Qed.
Lemma last_sep c a b a' b' : without c b -> without c b' -> a ++ String c b = a' ++ String c b' -> a = a' /\ b = b'.
Proof.
  intros W W'. revert a'. induction a as [|x a IH]; intros a' H; destruct a' as [|y a'].
  - injection H as H. auto.
  - cbn [append] in H. injection H as _ H. exfalso. now apply (W a' b').
  - cbn [append] in H. injection H as _ H. exfalso. symmetry in H. now apply (W' a b).
  - injection H as -> H. destruct (IH a' H) as [-> ->]. auto.
Qed.
Lemma length_app_s (a b : string) : String.length (a ++ b) = (String.length a + String.length b)%nat.
Proof. induction a as [|x a IH]; [reflexivity|]. cbn [append String.length]. rewrite IH. lia. Qed.
Lemma same_end a a' s : a ++ s = a' ++ s -> a = a'.
Proof.
  revert a'. induction a as [|x a IH]; intros a' H; destruct a' as [|y a']; [reflexivity| | |injection H as -> H; f_equal; auto];
  apply (f_equal String.length) in H; rewrite !length_app_s in H; cbn [String.length] in H; lia.
Qed.
Fixpoint free (c : ascii) (s : string) : bool := match s with EmptyString => true | String d s => negb (Ascii.eqb d c) && free c s end.
Lemma free_without c s : free c s = true -> without c s.
Proof.
  induction s as [|d s IH]; intros H; [apply without_nil|]. cbn [free] in H. apply andb_prop in H as [A B]. apply without_cons. split; [|auto]. destruct (Ascii.eqb_spec d c); [discriminate|assumption].
Qed.

(** The two last parts of the name of a file. *)
Definition kind_text (k : bool) : string := if k then "endpoint" else "sender".
Definition part_text (p : bool) : string := if p then "pending.sqlite" else "error.sqlite".
Definition path (c : config) (k : bool) (r : string) (p : bool) : string :=
  buffer_directory c ++ "/" ++ name c ++ "-" ++ instance c ++ "-" ++ r ++ "-" ++ kind_text k ++ "-" ++ part_text p.
Lemma file_paths c r : (pending_file (buffer_directory c) (endpoint_base c r) = path c true r true /\ error_file (buffer_directory c) (endpoint_base c r) = path c true r false) /\
  pending_file (buffer_directory c) (sender_base c r) = path c false r true /\ error_file (buffer_directory c) (sender_base c r) = path c false r false.
Proof. unfold pending_file, error_file, endpoint_base, sender_base, path. now rewrite !app_assoc_s. Qed.
Lemma path_parts c k r p : path c k r p = (((buffer_directory c ++ "/") ++ (name c ++ "-" ++ instance c ++ "-" ++ r)) ++ String "-" (kind_text k)) ++ String "-" (part_text p).
Proof. unfold path. rewrite !app_assoc_s. reflexivity. Qed.
Lemma kind_free k : without "-" (kind_text k).
Proof. apply free_without. now destruct k. Qed.
Lemma part_free p : without "-" (part_text p).
Proof. apply free_without. now destruct p. Qed.
Lemma path_end c k r p c' k' r' p' : buffer_directory c = buffer_directory c' -> path c k r p = path c' k' r' p' ->
  name c ++ "-" ++ instance c ++ "-" ++ r = name c' ++ "-" ++ instance c' ++ "-" ++ r' /\ k = k' /\ p = p'.
Proof.
  intros D H. rewrite !path_parts, D in H. apply last_sep in H as [H P]; [|apply part_free..]. apply last_sep in H as [H K]; [|apply kind_free..]. apply cancel_left in H.
  split; [exact H|]. split; [destruct k, k'; try reflexivity; discriminate|destruct p, p'; try reflexivity; discriminate].
Qed.
Lemma path_inj c k r p k' r' p' : path c k r p = path c k' r' p' -> k = k' /\ r = r' /\ p = p'.
Proof. intros H. destruct (path_end _ _ _ _ _ _ _ _ eq_refl H) as (A & B & C). apply cancel_left in A. injection A as A. apply cancel_left in A. injection A as A. auto. Qed.
Lemma path_inj_front c k r p c' k' r' p' : buffer_directory c = buffer_directory c' -> no_dash (name c) -> no_dash (instance c) -> no_dash (name c') -> no_dash (instance c') ->
  path c k r p = path c' k' r' p' -> name c = name c' /\ instance c = instance c' /\ r = r'.
Proof. intros D A B A' B' H. destruct (path_end _ _ _ _ _ _ _ _ D H) as (E & _ & _). apply first_sep in E as [E1 E]; auto. apply first_sep in E as [E2 E]; auto. Qed.
Lemma path_inj_back c k r p c' k' r' p' : buffer_directory c = buffer_directory c' -> no_dash (instance c) -> no_dash r -> no_dash (instance c') -> no_dash r' ->
  path c k r p = path c' k' r' p' -> name c = name c' /\ instance c = instance c' /\ r = r'.
Proof.
  intros D A B A' B' H. destruct (path_end _ _ _ _ _ _ _ _ D H) as (E & _ & _). rewrite <- !app_assoc_s in E. cbn [append] in E.
  change ((((name c ++ "-") ++ instance c) ++ "-") ++ r) with ((((name c ++ "-") ++ instance c) ++ "-") ++ r) in E.
  rewrite (app_assoc_s _ "-" r), (app_assoc_s _ "-" r') in E. apply last_sep in E as [E R]; auto. rewrite (app_assoc_s _ "-" (instance c)), (app_assoc_s _ "-" (instance c')) in E. apply last_sep in E as [E I]; auto.
Qed.

(** ** What is loaded *)
Definition is_last (ds : list decl) (n : nat) (r : string) : Prop := nth_error ds n = Some (BufferedSender r) /\ forall m, (n < m)%nat -> nth_error ds m <> Some (BufferedSender r).
Record Inv (pre : list decl) (w : loaded) : Prop := {
  Itable : forall r n b, In (r, (n, b)) (table w) <-> nth_error pre n = Some (if b then BufferedEndpoint r else Endpoint r);
  Ikeys : NoDup (map fst (table w));
  Ikeeper : forall r n, In (r, n) (keeper w) <-> is_last pre n r;
  Isenders : NoDup (map fst (keeper w))
}.
Lemma nth_snoc {A} (l : list A) x n y : nth_error (l ++ [x])%list n = Some y <-> nth_error l n = Some y \/ n = List.length l /\ y = x.
Proof.
  destruct (Nat.lt_ge_cases n (List.length l)) as [L|L].
  - rewrite nth_error_app1 by exact L. split; [auto|]. intros [H|[H _]]; [exact H|lia].
  - rewrite nth_error_app2 by exact L. assert (N : nth_error l n = None) by now apply nth_error_None. rewrite N. destruct (n - List.length l)%nat as [|m] eqn:E; cbn [nth_error].
    + split; [intros [= <-]; right; split; [lia|reflexivity]|]. intros [H|[_ ->]]; [discriminate|reflexivity].
    + split; [destruct m; discriminate|]. intros [H|[H _]]; [discriminate|lia].
Qed.
Lemma nth_short {A} (l : list A) n x : nth_error l n = Some x -> (n < List.length l)%nat.
Proof. intros H. apply nth_error_Some. congruence. Qed.
Lemma shas_fst {V} k (d : list (string * V)) : shas k d = true <-> In k (map fst d).
Proof. unfold shas. destruct (sget k d) as [v|] eqn:E.
  - apply sget_finds in E as (a & b & -> & _). split; [intros _|reflexivity]. rewrite map_app. apply in_or_app. right. now left.
  - apply sget_missing in E. split; [discriminate|]. intros H. now elim E.
Qed.
Lemma register_inv pre w r b w' : Inv pre w -> register_handler w r (List.length pre) b = Ok w' -> Inv (pre ++ [if b then BufferedEndpoint r else Endpoint r])%list w'.
Proof.
  intros [T K P S] H. unfold register_handler in H. destruct (shas r (table w)) eqn:E; [discriminate|]. injection H as <-. constructor; cbn [table keeper]; [| | |exact S].
  - intros r' n b'. rewrite in_app_iff, T, nth_snoc. cbn [In]. split; intros [H|H]; auto; right.
    + destruct H as [H|[]]. injection H as <- <- <-. auto.
    + destruct H as [-> H]. left. destruct b, b'; try discriminate; injection H as <-; reflexivity.
  - rewrite map_app. cbn [map fst]. assert (N : ~ In r (map fst (table w))) by (intros N; apply shas_fst in N; congruence). clear -K N. induction (map fst (table w)) as [|x l IH]; cbn [app].
    + constructor; [intros []|constructor].
    + inversion K as [|? ? K1 K2]; subst. constructor; [|apply IH; [exact K2|intros H; apply N; now right]]. rewrite in_app_iff. intros [H|[H|[]]]; [now apply K1|subst; apply N; now left].
  - intros r' n. rewrite P. unfold is_last. rewrite nth_snoc. split.
    + intros [A B]. split; [now left|]. intros m M X. apply nth_snoc in X as [X|[_ X]]; [now apply (B m M)|destruct b; discriminate].
    + intros [[A|[_ A]] B]; [|destruct b; discriminate]. split; [exact A|]. intros m M X. apply (B m M). apply nth_snoc. now left.
Qed.
Lemma add_inv pre w r : Inv pre w -> Inv (pre ++ [BufferedSender r])%list (add_buffered_sender w r (List.length pre)).
Proof.
  intros [T K P S]. unfold add_buffered_sender.
  assert (Kn : NoDup (map fst (sset r (List.length pre) (keeper w)))).
  { rewrite sset_keys. destruct (shas r (keeper w)) eqn:E; [exact S|]. assert (N : ~ In r (map fst (keeper w))) by (intros N; apply shas_fst in N; congruence). clear -S N.
    induction (map fst (keeper w)) as [|x l IH]; cbn [app]; [constructor; [intros []|constructor]|].
    inversion S as [|? ? S1 S2]; subst. constructor; [|apply IH; [exact S2|intros H; apply N; now right]]. rewrite in_app_iff. intros [H|[H|[]]]; [now apply S1|subst; apply N; now left]. }
  constructor; cbn [table keeper]; [|exact K| |exact Kn].
  - intros r' n b. rewrite T, nth_snoc. split; [auto|]. intros [H|[_ H]]; [exact H|destruct b; discriminate].
  - intros r' n. rewrite <- (sget_in r' n _ Kn), sget_sset. unfold is_last. rewrite nth_snoc. destruct (String.eqb_spec r' r) as [->|D].
    + split.
      * intros [= <-]. split; [now right|]. intros m M X. apply nth_short in X. rewrite app_length in X. cbn [List.length] in X. lia.
      * intros [[A|[-> _]] B]; [|reflexivity]. exfalso. apply (B (List.length pre)); [now apply nth_short in A|]. apply nth_snoc. now right.
    + rewrite (sget_in r' n _ S), P. unfold is_last. split.
      * intros [A B]. split; [now left|]. intros m M X. apply nth_snoc in X as [X|[_ X]]; [now apply (B m M)|]. injection X as X. congruence.
      * intros [[A|[_ A]] B]; [|injection A as A; congruence]. split; [exact A|]. intros m M X. apply (B m M). apply nth_snoc. now left.
Qed.
Lemma load_inv ds : forall pre w w', Inv pre w -> declare_all w (List.length pre) ds = Ok w' -> Inv (pre ++ ds)%list w'.
Proof.
  induction ds as [|d ds IH]; intros pre w w' I H; cbn [declare_all] in H.
  - injection H as <-. now rewrite app_nil_r.
  - destruct (declare w (List.length pre) d) as [w1|] eqn:D; cbn [bind] in H; [|discriminate]. replace (pre ++ d :: ds)%list with ((pre ++ [d]) ++ ds)%list by (rewrite <- app_assoc; reflexivity).
    apply (IH _ w1); [|rewrite app_length; cbn [List.length]; now rewrite Nat.add_1_r].
    destruct d as [r|r|r]; cbn [declare] in D; [exact (register_inv pre w r false w1 I D)|exact (register_inv pre w r true w1 I D)|]. injection D as <-. now apply add_inv.
Qed.
Lemma loaded_inv ds w : load ds = Ok w -> Inv ds w.
Proof.
  intros H. apply (load_inv ds [] (mkLoaded [] []) w); [|exact H]. constructor; cbn [table keeper map]; try constructor.
  - intros []. - intros H0. destruct n; discriminate. - intros []. - intros [H0 _]. destruct n; discriminate.
Qed.

(** ** Who has files *)
Lemma start_in c ds l : start c ds = Ok l -> forall n p e, In (n, (p, e)) l <->
  exists k r, p = path c k r true /\ e = path c k r false /\ (if k then nth_error ds n = Some (BufferedEndpoint r) else is_last ds n r).
Proof.
  unfold start. destruct (load ds) as [w|] eqn:L; cbn [bind]; [|discriminate]. intros [= <-] n p e. apply loaded_inv in L as [T _ P _]. rewrite in_app_iff. unfold setup_buffered_handlers, setup_buffered_senders. rewrite !in_map_iff. split.
  - intros [([r [m b]] & E & I)|([r m] & E & I)]; cbn [fst snd] in E; injection E as <- <- <-; destruct (file_paths c r) as [[A B] [C D]].
    + apply filter_In in I as [I F]. cbn [snd] in F. subst b. apply T in I. exists true, r. auto.
    + apply P in I. exists false, r. auto.
  - intros (k & r & -> & -> & H). destruct (file_paths c r) as [[A B] [C D]]. destruct k.
    + left. exists (r, (n, true)). cbn [fst snd]. split; [now rewrite A, B|]. apply filter_In. split; [|reflexivity]. now apply T.
    + right. exists (r, n). cbn [fst snd]. split; [now rewrite C, D|]. now apply P.
Qed.
Lemma files_char c ds n p e : has_files c ds n p e -> exists k r, p = path c k r true /\ e = path c k r false /\ declared ds n k r.
Proof.
  intros (l & S & I). apply (start_in c ds l S) in I as (k & r & -> & -> & H). exists k, r. split; [reflexivity|]. split; [reflexivity|]. unfold declared. destruct k.
  - exists (BufferedEndpoint r). split; [exact H|constructor].
  - exists (BufferedSender r). split; [apply H|constructor].
Qed.
Lemma file_char c ds n f : file_of c ds n f -> exists k r q, f = path c k r q /\ declared ds n k r.
Proof. intros (p & e & H & F). apply files_char in H as (k & r & -> & -> & D). destruct F as [-> | ->]; eauto. Qed.
Lemma declared_fun ds n k r k' r' : declared ds n k r -> declared ds n k' r' -> k = k' /\ r = r'.
Proof. intros (d & A & B) (d' & A' & B'). rewrite A in A'. injection A' as <-. destruct B; inversion B'; auto. Qed.

Lemma start_ok_load c ds l : start c ds = Ok l -> exists w, load ds = Ok w.
Proof. unfold start. destruct (load ds) as [w|]; [eauto|discriminate]. Qed.
(** Files are not shared. *)
Lemma endpoint_once c ds l n m r : start c ds = Ok l -> nth_error ds n = Some (BufferedEndpoint r) -> nth_error ds m = Some (BufferedEndpoint r) -> n = m.
Proof.
  intros S A B. destruct (start_ok_load _ _ _ S) as [w L]. apply loaded_inv in L as [T K _ _]. apply (T r n true) in A. apply (T r m true) in B. apply sget_in in A, B; auto. congruence.
Qed.
Lemma files_disjoint c ds n m f : file_of c ds n f -> file_of c ds m f -> n = m.
Proof.
  intros (p & e & (l & S & I) & F) (p' & e' & (l' & S' & I') & F'). rewrite S in S'. injection S' as <-. pose proof (start_in c ds l S) as C. apply C in I as (k & r & -> & -> & H). apply C in I' as (k' & r' & -> & -> & H').
  assert (X : exists q q', f = path c k r q /\ f = path c k' r' q') by (destruct F as [-> | ->]; destruct F' as [E|E]; eauto). destruct X as (q & q' & -> & X). apply path_inj in X as (<- & <- & _). destruct k.
  - exact (endpoint_once c ds l n m r S H H').
  - destruct H as [A B], H' as [A' B']. destruct (Nat.lt_trichotomy n m) as [L|[L|L]]; [|exact L|]; exfalso; [now apply (B m L)|now apply (B' n L)].
Qed.
Lemma own_two_files c ds n p e : has_files c ds n p e -> p <> e.
Proof. intros H. apply files_char in H as (k & r & -> & -> & _). intros E. apply path_inj in E as (_ & _ & E). discriminate. Qed.
Lemma in_lookup n l : (exists f, In (n, f) l) -> exists f, lookup n l = Some f /\ In (n, f) l.
Proof.
  intros [f I]. induction l as [|[m g] l IH]; [destruct I|]. cbn [lookup]. destruct (Nat.eqb_spec n m) as [->|D]; [exists g; split; [reflexivity|now left]|].
  destruct I as [I|I]; [injection I as <- _; congruence|]. destruct (IH I) as (h & A & B). exists h. split; [exact A|now right].
Qed.
Lemma lookup_in n l f : lookup n l = Some f -> In (n, f) l.
Proof. induction l as [|[m g] l IH]; [discriminate|]. cbn [lookup]. destruct (Nat.eqb_spec n m) as [->|D]; [intros [= ->]; now left|intros H; right; auto]. Qed.
Lemma every_queue c ds l n k r : start c ds = Ok l -> senders_differ ds -> declared ds n k r -> exists p e, has_files c ds n p e /\ push_message l n = Ok p.
Proof.
  intros S D Dn. pose proof (start_in c ds l S) as C.
  assert (I : In (n, (path c k r true, path c k r false)) l).
  { apply C. exists k, r. split; [reflexivity|]. split; [reflexivity|]. destruct k; [|split].
    - destruct Dn as (d & A & B). inversion B; subst. exact A.
    - destruct Dn as (d & A & B). inversion B; subst. exact A.
    - intros m L E. assert (n = m); [|lia]. apply (D n m r); [exact Dn|]. exists (BufferedSender r). split; [exact E|constructor]. }
  destruct (in_lookup n l (ex_intro (fun f => In (n, f) l) _ I)) as ([p e] & Lk & J). exists p, e. split; [now exists l|]. unfold push_message. now rewrite Lk.
Qed.
Lemma replaced c ds l n m r : start c ds = Ok l -> declared ds n false r -> declared ds m false r -> (n < m)%nat ->
  push_message l n = Raise "AttributeError" /\ forall f, ~ file_of c ds n f.
Proof.
  intros S Dn Dm L. assert (N : forall p e, ~ In (n, (p, e)) l).
  { intros p e I. apply (start_in c ds l S) in I as (k & r' & _ & _ & H). destruct Dn as (d & A & B). inversion B; subst. destruct k.
    - congruence.
    - destruct H as [A' H]. rewrite A in A'. injection A' as <-. destruct Dm as (d & A' & B'). inversion B'; subst. now apply (H m L). }
  split.
  - unfold push_message. destruct (lookup n l) as [[p e]|] eqn:E; [|reflexivity]. apply lookup_in in E. now apply N in E.
  - intros f (p & e & (l' & S' & I) & _). rewrite S in S'. injection S' as <-. exact (N _ _ I).
Qed.
Lemma restart c ds ds' n n' k r p e p' e' : declared ds n k r -> declared ds' n' k r -> has_files c ds n p e -> has_files c ds' n' p' e' -> p = p' /\ e = e'.
Proof.
  intros D D' H H'. apply files_char in H as (k1 & r1 & -> & -> & H). apply files_char in H' as (k2 & r2 & -> & -> & H').
  destruct (declared_fun _ _ _ _ _ _ D H) as [-> ->]. destruct (declared_fun _ _ _ _ _ _ D' H') as [-> ->]. auto.
Qed.
Lemma shut_all c ds l : start c ds = Ok l -> shut_down ds = Ok (map fst l) /\ NoDup (map fst l).
Proof.
  intros S. pose proof S as S0. unfold start in S. unfold shut_down. destruct (load ds) as [w|] eqn:L; cbn [bind] in *; [|discriminate]. injection S as <-.
  assert (E : (map (fun e => fst (snd e)) (filter (fun e => snd (snd e)) (table w)) ++ map snd (keeper w))%list = map fst (setup_buffered_handlers c w ++ setup_buffered_senders c w)%list).
  { rewrite map_app. unfold setup_buffered_handlers, setup_buffered_senders. now rewrite !map_map. }
  split; [now rewrite E|]. rewrite <- E. clear E S0. apply loaded_inv in L as [T K P S].
  assert (N1 : NoDup (map (fun e : string * (nat * bool) => fst (snd e)) (filter (fun e => snd (snd e)) (table w)))).
  { assert (F : forall r n b r' b', In (r, (n, b)) (table w) -> In (r', (n, b')) (table w) -> r = r').
    { intros r n b r' b' A B. apply T in A, B. rewrite A in B. destruct b, b'; try discriminate; injection B as <-; reflexivity. }
    clear T P S. induction (table w) as [|[r [n b]] t IH]; [constructor|]. cbn [map fst] in K. inversion K as [|? ? K1 K2]; subst. cbn [filter snd].
    assert (IH' := IH K2 (fun r n b r' b' A B => F r n b r' b' (or_intror A) (or_intror B))). destruct b; [|exact IH']. cbn [map fst snd]. constructor; [|exact IH'].
    intros I. apply in_map_iff in I as ([r' [n' b']] & E & I). cbn [fst snd] in E. subst n'. apply filter_In in I as [I _]. assert (r = r') by (eapply F; [now left|right; exact I]). subst r'.
    apply K1. apply in_map_iff. exists (r, (n, b')). auto. }
  assert (N2 : NoDup (map snd (keeper w))).
  { assert (F : forall r n r', In (r, n) (keeper w) -> In (r', n) (keeper w) -> r = r') by (intros r n r' A B; apply P in A as [A _], B as [B _]; congruence). clear T P N1 K.
    induction (keeper w) as [|[r n] t IH]; [constructor|]. cbn [map fst] in S. inversion S as [|? ? S1 S2]; subst. cbn [map snd]. constructor; [|apply IH; [exact S2|intros; eapply F; right; eassumption]].
    intros I. apply in_map_iff in I as ([r' n'] & E & I). cbn [snd] in E. subst n'. assert (r = r') by (eapply F; [now left|right; exact I]). subst r'. apply S1. apply in_map_iff. exists (r, n). auto. }
  assert (N3 : forall n, In n (map (fun e : string * (nat * bool) => fst (snd e)) (filter (fun e => snd (snd e)) (table w))) -> ~ In n (map snd (keeper w))).
  { intros n A B. apply in_map_iff in A as ([r [n1 b]] & E & A). cbn [fst snd] in E. subst n1. apply filter_In in A as [A F]. cbn [snd] in F. subst b. apply T in A.
    apply in_map_iff in B as ([r' n1] & E & B). cbn [snd] in E. subst n1. apply P in B as [B _]. congruence. }
  clear -N1 N2 N3. induction (map (fun e : string * (nat * bool) => fst (snd e)) (filter (fun e => snd (snd e)) (table w))) as [|x l IH]; cbn [app]; [exact N2|].
  inversion N1 as [|? ? A B]; subst. constructor; [|apply IH; [exact B|intros n I; apply N3; now right]]. rewrite in_app_iff. intros [I|I]; [now apply A|]. apply (N3 x); [now left|exact I].
Qed.
(** An application starts unless two endpoints have one route key. *)
Lemma load_progress ds : forall pre w, Inv pre w -> (forall n m r d d', nth_error (pre ++ ds)%list n = Some d -> nth_error (pre ++ ds)%list m = Some d' -> endpoint_route d r -> endpoint_route d' r -> n = m) ->
  exists w', declare_all w (List.length pre) ds = Ok w'.
Proof.
  induction ds as [|d ds IH]; intros pre w I U; cbn [declare_all]; [eauto|]. replace (pre ++ d :: ds)%list with ((pre ++ [d]) ++ ds)%list in U by (rewrite <- app_assoc; reflexivity).
  assert (X : exists w1, declare w (List.length pre) d = Ok w1 /\ Inv (pre ++ [d])%list w1).
  { assert (R : forall (r : string) (b : bool), d = (if b then BufferedEndpoint r else Endpoint r) -> exists w1, register_handler w r (List.length pre) b = Ok w1).
    { intros r b Ed. unfold register_handler. destruct (shas r (table w)) eqn:E; [|eauto]. exfalso. apply shas_fst in E. apply in_map_iff in E as ([r' [m b']] & E & J). cbn [fst] in E. subst r'.
      apply (Itable _ _ I) in J. assert (Lm : (m < List.length pre)%nat) by now apply nth_short in J.
      assert (m = List.length pre); [|lia]. eapply (U m (List.length pre) r).
      - rewrite nth_error_app1; [rewrite nth_error_app1 by exact Lm; exact J|rewrite app_length; lia].
      - rewrite nth_error_app1; [rewrite nth_error_app2 by lia; rewrite Nat.sub_diag; reflexivity|rewrite app_length; cbn [List.length]; lia].
      - destruct b'; [now right|now left].
      - subst d. destruct b; [now right|now left]. }
    destruct d as [r|r|r]; cbn [declare].
    - destruct (R r false eq_refl) as [w1 E]. exists w1. split; [exact E|]. exact (register_inv pre w r false w1 I E).
    - destruct (R r true eq_refl) as [w1 E]. exists w1. split; [exact E|]. exact (register_inv pre w r true w1 I E).
    - eexists. split; [reflexivity|]. now apply add_inv. }
  destruct X as (w1 & E & I1). rewrite E. cbn [bind]. destruct (IH (pre ++ [d])%list w1 I1 U) as [w2 E2]. exists w2. rewrite app_length in E2. cbn [List.length] in E2. now rewrite Nat.add_1_r in E2.
Qed.
Lemma starts c ds : (forall n m r d d', nth_error ds n = Some d -> nth_error ds m = Some d' -> endpoint_route d r -> endpoint_route d' r -> n = m) <-> exists l, start c ds = Ok l.
Proof.
  split.
  - intros U. destruct (load_progress ds [] (mkLoaded [] [])) as [w E]; [|exact U|].
    + constructor; cbn [table keeper map]; try constructor; [intros []|intros H0; destruct n; discriminate|intros []|intros [H0 _]; destruct n; discriminate].
    + unfold start, load. cbn [List.length] in E. rewrite E. cbn [bind]. eauto.
  - intros [l S] n m r d d' A B Hd Hd'. destruct (start_ok_load _ _ _ S) as [w L]. apply loaded_inv in L as [T K _ _].
    assert (X : forall n d, nth_error ds n = Some d -> endpoint_route d r -> exists b, In (r, (n, b)) (table w)) by (intros n0 d0 A0 [-> | ->]; [exists false|exists true]; now apply T).
    destruct (X n d A Hd) as [b Ib]. destruct (X m d' B Hd') as [b' Ib']. apply sget_in in Ib, Ib'; auto. congruence.
Qed.

(** ** Different instances *)
Lemma apart_front c c' ds ds' n m f : buffer_directory c = buffer_directory c' -> no_dash (name c) -> no_dash (instance c) -> no_dash (name c') -> no_dash (instance c') ->
  file_of c ds n f -> file_of c' ds' m f -> name c = name c' /\ instance c = instance c'.
Proof.
  intros D A B A' B' F F'. apply file_char in F as (k & r & q & -> & _). apply file_char in F' as (k' & r' & q' & E & _). apply path_inj_front in E as (X & Y & _); auto.
Qed.
Lemma apart_back c c' ds ds' n m f : buffer_directory c = buffer_directory c' -> no_dash (instance c) -> no_dash (instance c') ->
  (forall k r, declared ds n k r -> no_dash r) -> (forall k r, declared ds' m k r -> no_dash r) ->
  file_of c ds n f -> file_of c' ds' m f -> name c = name c' /\ instance c = instance c'.
Proof.
  intros D A A' R R' F F'. apply file_char in F as (k & r & q & -> & Dn). apply file_char in F' as (k' & r' & q' & E & Dm). apply path_inj_back in E as (X & Y & _); eauto.
Qed.
Lemma lock_inj c c' : no_dash (instance c) -> no_dash (instance c') -> lock_file c = lock_file c' -> name c = name c' /\ instance c = instance c'.
Proof. intros A A' H. unfold lock_file in H. rewrite <- !app_assoc_s in H. apply same_end in H. rewrite !app_assoc_s in H. now apply last_sep in H. Qed.
Lemma log_inj c c' : no_dash (instance c) -> no_dash (instance c') -> log_file c = log_file c' -> name c = name c' /\ instance c = instance c'.
Proof. intros A A' H. unfold log_file in H. rewrite <- !app_assoc_s in H. apply same_end in H. rewrite !app_assoc_s in H. now apply last_sep in H. Qed.
Lemma socket_inj c c' : without "_"%char (instance c) -> without "_"%char (instance c') -> socket_file c = socket_file c' -> name c = name c' /\ instance c = instance c'.
Proof. intros A A' H. unfold socket_file in H. rewrite <- !app_assoc_s in H. apply same_end in H. rewrite !app_assoc_s in H. now apply last_sep in H. Qed.
