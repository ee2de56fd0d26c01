(** Proofs about the utility functions: flattened dictionaries and application names. *)
From Coq Require Import List FinFun NArith Bool String Lia Arith ZifyBool ZifyNat ZifyN.
From Verif Require Import Base UtilModel UtilSpec UtilProofs.
Import ListNotations.
Local Open Scope N_scope.

Section D.
Context {A : Type}.
Implicit Types (d e : list (text * A)).

Lemma teqb_iff s t : teqb s t = true <-> s = t.
Proof.
  revert t. induction s as [|a s IH]; intros [|b t]; cbn [teqb]; try easy.
  rewrite andb_true_iff, IH, N.eqb_eq. split; [now intros [-> ->]|now intros [= -> ->]].
Qed.
Lemma teqb_refl s : teqb s s = true. Proof. now apply teqb_iff. Qed.
Lemma teqb_neq s t : s <> t -> teqb s t = false.
Proof. intros H. destruct (teqb s t) eqn:E; [apply teqb_iff in E; easy|easy]. Qed.

Ltac teq := match goal with |- context [teqb ?a ?b] => let E := fresh "E" in destruct (teqb a b) eqn:E; [apply teqb_iff in E; subst|] end.

Lemma put_keys d k x j : In j (map fst (put d k x)) <-> j = k \/ In j (map fst d).
Proof.
  induction d as [|[k' y] r IH]; cbn [put map fst In]; [intuition|].
  teq; cbn [map fst In]; [intuition|]. rewrite IH. intuition.
Qed.
Lemma put_nodup d k x : NoDup (map fst d) -> NoDup (map fst (put d k x)).
Proof.
  induction d as [|[k' y] r IH]; cbn [put map fst]; intros H.
  - constructor; [easy|constructor].
  - inversion H; subst. teq; cbn [map fst]; [now constructor|]. constructor; [|auto]. rewrite put_keys. intros [->|Hi]; [|easy].
    now rewrite teqb_refl in E.
Qed.
Lemma put_in d k x j y : NoDup (map fst d) -> (In (j, y) (put d k x) <-> (j = k /\ y = x) \/ (j <> k /\ In (j, y) d)).
Proof.
  induction d as [|[k' z] r IH]; cbn [put map fst In]; intros H.
  - split; [intros [[= <- <-]|[]]; auto|]. intros [[-> ->]|[_ []]]. now left.
  - inversion H; subst. teq; cbn [In].
    + split.
      * intros [[= <- <-]|Hi]; [auto|]. right. split; [|auto]. intros ->. apply H2. now apply in_map with (f := fst) in Hi.
      * intros [[-> ->]|[Hn [[= <- <-]|Hi]]]; [auto|easy|auto].
    + rewrite IH by easy. split.
      * intros [[= <- <-]|[?|[? ?]]]; auto. right. split; [|auto]. intros ->. now rewrite teqb_refl in E.
      * intros [[-> ->]|[Hn [[= <- <-]|Hi]]]; auto.
Qed.
Lemma put_put d k x y : put (put d k x) k y = put d k y.
Proof.
  induction d as [|[k' z] r IH]; cbn [put]; [now rewrite teqb_refl|].
  destruct (teqb k k') eqn:E; cbn [put]; rewrite E; [easy|]. now rewrite IH.
Qed.
Lemma put_comm d k x j y : In k (map fst d) -> k <> j -> put (put d j y) k x = put (put d k x) j y.
Proof.
  intros Hi Hn. induction d as [|[k' z] r IH]; [easy|]. cbn [map fst In] in Hi. cbn [put].
  destruct (teqb j k') eqn:Ej; destruct (teqb k k') eqn:Ek; cbn [put]; rewrite ?Ej, ?Ek; try easy.
  - apply teqb_iff in Ej, Ek. congruence.
  - rewrite IH; [easy|]. destruct Hi as [->|Hi]; [now rewrite teqb_refl in Ek|easy].
Qed.
Lemma put_new d k x : ~ In k (map fst d) -> put d k x = d ++ [(k, x)].
Proof.
  induction d as [|[k' z] r IH]; [easy|]. cbn [map fst In put app]. intros H. rewrite teqb_neq by (intros ->; apply H; now left).
  rewrite IH; [easy|]. intros Hi. apply H. now right.
Qed.

Lemma update_cons d k x e : update d ((k, x) :: e) = update (put d k x) e. Proof. easy. Qed.
Lemma update_app d e f : update d (e ++ f) = update (update d e) f.
Proof. unfold update. now rewrite fold_left_app. Qed.
Lemma update_put_notin d e k x : In k (map fst d) -> ~ In k (map fst e) -> put (update d e) k x = update (put d k x) e.
Proof.
  revert d. induction e as [|[j y] e IH]; intros d Hi Hn; [easy|]. cbn [map fst In] in Hn. rewrite !update_cons, IH.
  - rewrite put_comm; [easy|easy|]. intros ->. apply Hn. now left.
  - apply put_keys. now right.
  - intros H. apply Hn. now right.
Qed.
Lemma update_put d e k x : NoDup (map fst e) -> update d (put e k x) = put (update d e) k x.
Proof.
  revert d. induction e as [|[j y] e IH]; intros d H; [easy|]. cbn [map fst] in H. inversion H; subst. cbn [put].
  destruct (teqb k j) eqn:E.
  - apply teqb_iff in E. subst j. rewrite !update_cons, update_put_notin; [now rewrite put_put| |easy]. apply put_keys. now left.
  - rewrite !update_cons. now apply IH.
Qed.
Lemma update_nodup d e : NoDup (map fst d) -> NoDup (map fst (update d e)).
Proof. revert d. induction e as [|[j y] e IH]; intros d H; [easy|]. rewrite update_cons. apply IH, put_nodup, H. Qed.
Lemma update_update d e f : NoDup (map fst e) -> update d (update e f) = update (update d e) f.
Proof.
  revert e. induction f as [|[j y] f IH]; intros e H; [easy|]. rewrite !update_cons, IH by (now apply put_nodup). now rewrite update_put.
Qed.
Lemma update_in d e k x : NoDup (map fst d) ->
  (In (k, x) (update d e) <->
   (exists b a, e = b ++ (k, x) :: a /\ ~ In k (map fst a)) \/ (In (k, x) d /\ ~ In k (map fst e))).
Proof.
  revert d. induction e as [|[j y] e IH]; intros d H.
  - split; [intros Hi; right; split; [easy|intros []]|]. intros [(b & a & E & _)|[Hi _]]; [now destruct b|easy].
  - rewrite update_cons, IH by (now apply put_nodup). rewrite put_in by easy. split.
    + intros [(b & a & -> & Hn)|[[[-> ->]|[Hk Hi]] Hn]].
      * left. exists ((j, y) :: b), a. easy.
      * left. exists [], e. easy.
      * right. split; [easy|]. cbn [map fst In]. intros [->|?]; easy.
    + intros [(b & a & E & Hn)|[Hi Hn]].
      * destruct b as [|p b]; cbn [app] in E.
        { injection E as -> -> ->. right. auto. }
        { injection E as _ ->. left. exists b, a. easy. }
      * cbn [map fst In] in Hn. right. split; [right|]; intuition.
Qed.
Lemma update_fresh d e : NoDup (map fst (d ++ e)) -> update d e = d ++ e.
Proof.
  revert d. induction e as [|[j y] e IH]; intros d H; [now rewrite app_nil_r|]. rewrite update_cons, put_new.
  - rewrite IH, <- app_assoc; [easy|]. now rewrite <- app_assoc.
  - rewrite map_app in H. cbn [map fst] in H. apply NoDup_remove_2 in H. intros Hi. apply H, in_or_app. now left.
Qed.

(** ** Flattening assigns the entries in order *)
Definition join (cur : text) (p : list text) : text := fold_left new_key p cur.

Fixpoint dsize (v : dval A) : nat :=
  match v with
  | Leaf _ => 1%nat
  | Dict items => S ((fix go (items : list (text * dval A)) : nat := match items with [] => 0%nat | (_, w) :: r => (S (dsize w) + go r)%nat end) items)
  end.

Lemma entries_cons k (w : dval A) r : entries (Dict ((k, w) :: r)) = map (fun px => (k :: fst px, snd px)) (entries w) ++ entries (Dict r).
Proof. easy. Qed.
Lemma proper_cons k (w : dval A) r : proper (Dict ((k, w) :: r)) <-> ~ In k (map fst r) /\ proper w /\ proper (Dict r).
Proof. cbn [proper map fst]. rewrite NoDup_cons_iff. intuition. Qed.
Lemma all_keys_cons P k (w : dval A) r : all_keys P (Dict ((k, w) :: r)) <-> P k /\ all_keys P w /\ all_keys P (Dict r).
Proof. easy. Qed.

Lemma flatten_go (items : list (text * dval A)) cur acc :
  (forall k w, In (k, w) items -> forall c, flatten w c = match w with Leaf _ => [] | _ => update [] (map (fun px => (join c (fst px), snd px)) (entries w)) end) ->
  (fix go (items : list (text * dval A)) (acc : list (text * A)) {struct items} : list (text * A) :=
         match items with
         | [] => acc
         | (k, w) :: r => go r (match w with
                                | Dict _ => update acc (flatten w (new_key cur k))
                                | Leaf x => put acc (new_key cur k) x
                                end)
         end) items acc =
  update acc (map (fun px => (join cur (fst px), snd px)) (entries (Dict items))).
Proof.
  revert acc. induction items as [|[k w] r IH]; intros acc H; [easy|].
  rewrite IH by (intros; apply (H k0); now right). rewrite entries_cons, map_app, map_map, update_app. f_equal.
  specialize (H k w (or_introl eq_refl) (new_key cur k)). destruct w as [x|l]; [easy|]. rewrite H.
  rewrite update_update by constructor. easy.
Qed.
Lemma flatten_eq n v cur : (dsize v <= n)%nat ->
  flatten v cur = match v with Leaf _ => [] | _ => update [] (map (fun px => (join cur (fst px), snd px)) (entries v)) end.
Proof.
  revert v cur. induction n as [|n IH]; intros v cur Hn; [destruct v; cbn [dsize] in Hn; lia|].
  destruct v as [x|items]; [easy|]. cbn [flatten]. apply flatten_go. intros k w Hi c. apply IH.
  cbn [dsize] in Hn. apply le_S_n in Hn. revert Hn Hi. clear. intros Hn Hi. induction items as [|[j y] r IH]; [easy|].
  destruct Hi as [[= -> ->]|Hi]; [lia|]. apply IH; [lia|easy].
Qed.

(** ** Texts of paths *)
Lemma join_nonempty cur p : cur <> [] -> join cur p = match p with [] => cur | _ => cur ++ 46 :: dotted p end.
Proof.
  unfold join. revert cur. induction p as [|k p IH]; intros cur Hc; [easy|]. cbn [fold_left].
  assert (E : new_key cur k = cur ++ 46 :: k) by (unfold new_key; destruct cur; easy).
  rewrite E, IH by (now destruct cur). destruct p as [|j p]; [easy|].
  change (dotted (k :: j :: p)) with (k ++ 46 :: dotted (j :: p)). now rewrite <- app_assoc.
Qed.
Lemma join_empty p : join [] p = path_text p.
Proof.
  induction p as [|k p IH]; [easy|]. change (join [] (k :: p)) with (join (new_key [] k) p). cbn [new_key path_text].
  destruct k as [|c k]; [easy|]. rewrite join_nonempty by easy. now destruct p.
Qed.
Lemma path_text_plain p : (forall k, In k p -> k <> []) -> path_text p = dotted p.
Proof. destruct p as [|[|c k] p]; [easy| |easy]. intros H. exfalso. apply (H []); [now left|easy]. Qed.

Lemma flatten_dictionary_eq (d : list (text * dval A)) : flatten_dictionary d = update [] (map (fun px => (path_text (fst px), snd px)) (entries (A := A) (Dict d))).
Proof.
  unfold flatten_dictionary. rewrite (flatten_eq (dsize (Dict d))) by easy. f_equal. apply map_ext. intros px. now rewrite join_empty.
Qed.

Lemma flatten_nodup (d : list (text * dval A)) : NoDup (map fst (flatten_dictionary d)).
Proof. rewrite flatten_dictionary_eq. apply update_nodup. constructor. Qed.

Lemma map_split_in {B C} (f : B -> C) l b y a : map f l = b ++ y :: a -> exists b' x a', l = b' ++ x :: a' /\ b = map f b' /\ y = f x /\ a = map f a'.
Proof.
  revert b. induction l as [|x l IH]; intros b E; [now destruct b|]. destruct b as [|z b]; cbn [map app] in E; injection E as E1 E2.
  - exists [], x, l. subst. easy.
  - destruct (IH _ E2) as (b' & x' & a' & -> & -> & -> & ->). exists (x :: b'), x', a'. subst. easy.
Qed.
Lemma flatten_in (d : list (text * dval A)) k x : In (k, x) (flatten_dictionary d) <-> last_entry d k x.
Proof.
  rewrite flatten_dictionary_eq, update_in by constructor. unfold last_entry. split.
  - intros [(b & a & E & Hn)|[[] _]]. apply map_split_in in E. destruct E as (b' & [p y] & a' & E & -> & [= -> ->] & ->).
    exists b', p, a'. split; [easy|]. split; [easy|]. intros q z Hi Eq. apply Hn. rewrite map_map. apply in_map_iff. exists (q, z). easy.
  - intros (b & p & a & E & <- & Hn). left. rewrite E, map_app. cbn [map fst snd]. eexists _, _. split; [reflexivity|].
    rewrite map_map. intros Hi. apply in_map_iff in Hi. destruct Hi as ([q z] & Eq & Hi). cbn [fst snd] in Eq. now apply (Hn q z).
Qed.

(** ** Plain keys *)
Lemma entries_paths n (v : dval A) : (dsize v <= n)%nat -> proper v -> NoDup (map fst (entries v)).
Proof.
  revert v. induction n as [|n IH]; intros v Hn; [destruct v; cbn [dsize] in Hn; lia|]. destruct v as [x|items].
  - intros _. cbn. constructor; [easy|constructor].
  - cbn [dsize] in Hn. apply le_S_n in Hn. induction items as [|[k w] r IHr]; intros Hp; [constructor|].
    rewrite proper_cons in Hp. destruct Hp as (Hk & Hw & Hr). rewrite entries_cons, map_app, map_map.
    assert (Hnd : forall (l1 l2 : list (list text)), NoDup l1 -> NoDup l2 -> (forall z, In z l1 -> ~ In z l2) -> NoDup (l1 ++ l2)).
    { clear. induction l1 as [|a l1 IH]; [easy|]. intros l2 H1 H2 Hd. inversion H1; subst. cbn [app]. constructor.
      - intros Hi. apply in_app_or in Hi. destruct Hi; [easy|]. apply (Hd a); [now left|easy].
      - apply IH; [easy|easy|]. intros z Hz. apply Hd. now right. }
    apply Hnd.
    + cbn [fst]. assert (E : map (fun px : list text * A => k :: fst px) (entries w) = map (cons k) (map fst (entries w))) by (now rewrite map_map).
      rewrite E. apply FinFun.Injective_map_NoDup; [now intros a b [= ->]|]. apply IH; [lia|easy].
    + apply IHr; [lia|easy].
    + intros z Hz Hz2. apply in_map_iff in Hz. destruct Hz as (px & <- & _). cbn [fst] in Hz2. apply Hk.
      revert Hz2. clear. generalize (fst px). intros p. induction r as [|[j u] r IH]; [easy|].
      rewrite entries_cons, map_app, map_map. intros Hi. apply in_app_or in Hi. destruct Hi as [Hi|Hi]; [|right; auto].
      apply in_map_iff in Hi. destruct Hi as (qx & Eq & _). cbn [fst] in Eq. injection Eq as -> _. now left.
Qed.
Lemma entries_keys P n (v : dval A) p x k : (dsize v <= n)%nat -> all_keys P v -> In (p, x) (entries v) -> In k p -> P k.
Proof.
  revert v p x. induction n as [|n IH]; intros v p x Hn; [destruct v; cbn [dsize] in Hn; lia|]. destruct v as [y|items].
  - intros _ [[= <- <-]|[]] [].
  - cbn [dsize] in Hn. apply le_S_n in Hn. induction items as [|[j w] r IHr]; intros Ha Hi Hk; [easy|].
    rewrite all_keys_cons in Ha. destruct Ha as (Hj & Hw & Hr). rewrite entries_cons in Hi. apply in_app_or in Hi. destruct Hi as [Hi|Hi].
    + apply in_map_iff in Hi. destruct Hi as ([q z] & [= <- <-] & Hi). cbn [fst] in *. destruct Hk as [<-|Hk]; [easy|].
      eapply (IH w q z); eauto. lia.
    + apply IHr; try easy. lia.
Qed.
Lemma entries_nonempty (d : list (text * dval A)) p x : In (p, x) (entries (A := A) (Dict d)) -> p <> [].
Proof.
  induction d as [|[j w] r IH]; [easy|]. rewrite entries_cons. intros Hi. apply in_app_or in Hi. destruct Hi as [Hi|Hi]; [|auto].
  apply in_map_iff in Hi. destruct Hi as (q & [= <- _] & _). easy.
Qed.
Lemma dotted_inj p q : p <> [] -> q <> [] -> (forall k, In k p -> ~ In 46 k) -> (forall k, In k q -> ~ In 46 k) -> dotted p = dotted q -> p = q.
Proof. intros. rewrite <- (split_dotted p), <- (split_dotted q) by easy. congruence. Qed.

Lemma flatten_plain (d : list (text * dval A)) : proper (Dict d) -> all_keys plain_key (Dict d) ->
  flatten_dictionary d = map (fun px => (dotted (fst px), snd px)) (entries (A := A) (Dict d)).
Proof.
  intros Hp Ha. rewrite flatten_dictionary_eq.
  assert (E : map (fun px : list text * A => (path_text (fst px), snd px)) (entries (Dict d)) = map (fun px => (dotted (fst px), snd px)) (entries (Dict d))).
  { apply map_ext_in. intros [p x] Hi. cbn [fst snd]. f_equal. apply path_text_plain. intros k Hk. eapply (entries_keys plain_key) in Hk; eauto. apply Hk. }
  rewrite E. rewrite update_fresh; [easy|]. cbn [app]. rewrite map_map. cbn [fst].
  assert (K : forall l : list (list text * A), NoDup (map fst l) -> (forall p x, In (p, x) l -> p <> [] /\ forall k, In k p -> ~ In 46 k) -> NoDup (map (fun x => dotted (fst x)) l)).
  { induction l as [|[p x] l IH]; intros Hn H; [constructor|]. cbn [map fst] in *. inversion Hn; subst. constructor.
    - intros Hi. apply in_map_iff in Hi. destruct Hi as ([q y] & Eq & Hi). cbn [fst] in Eq.
      destruct (H p x (or_introl eq_refl)), (H q y (or_intror Hi)). apply dotted_inj in Eq; [|easy..]. subst. apply H2.
      apply in_map_iff. exists (p, y). easy.
    - apply IH; [easy|]. intros q y Hi. apply (H q y). now right. }
  apply K; [eapply entries_paths; eauto|]. intros p x Hi. split; [eapply entries_nonempty; eauto|].
  intros k Hk. eapply (entries_keys plain_key) in Hk; eauto. apply Hk.
Qed.
End D.

(** ** Application names *)
Lemma last_split_nodir s : ~ In 47 s -> basename s = s.
Proof. intros H. unfold basename, slash. now rewrite split_plain. Qed.
Lemma basename_dir dir s : ~ In 47 s -> basename (dir ++ 47 :: s) = s.
Proof.
  intros H. unfold basename, slash. induction dir as [|c dir IH]; cbn [app].
  - cbn [split_on N.eqb]. change (47 =? 47) with true. cbv iota. rewrite split_plain by easy. easy.
  - cbn [split_on]. pose proof (split_nonempty 47 (dir ++ 47 :: s)) as Hn.
    assert (Hl : (2 <= List.length (split_on 47%N (dir ++ 47%N :: s)))%nat).
    { clear. induction dir as [|b dir IH]; cbn [app split_on].
      - cbn [N.eqb]. change (47 =? 47) with true. cbv iota. pose proof (split_nonempty 47 s). destruct (split_on 47 s); [easy|]. cbn. lia.
      - destruct (b =? 47); [cbn [List.length]; lia|]. destruct (split_on 47 (dir ++ 47 :: s)); cbn [List.length] in *; lia. }
    destruct (split_on 47 (dir ++ 47 :: s)) as [|w ws] eqn:E; [easy|].
    destruct (c =? 47); [exact IH|]. destruct ws as [|w2 ws]; [cbn in Hl; lia|]. exact IH.
Qed.
Lemma drop_py_script s : ~ In 46 s -> drop_py (s ++ u ".py") = s.
Proof.
  induction s as [|c s IH]; [easy|]. intros H. cbn [app].
  assert (Hc : c <> 46) by (intros ->; apply H; now left).
  assert (E : forall r, drop_py (c :: r) = c :: drop_py r).
  { intros r. cbn [drop_py]. destruct c as [|c]; [easy|]. do 6 (destruct c as [c|c|]; try easy). }
  rewrite E, IH; [easy|]. intros Hi. apply H. now right.
Qed.
Lemma drop_py_pieces w ws : ~ In 46 w -> Forall file_name ws -> drop_py (w ++ flat_map (fun x => u ".py" ++ x) ws) = w ++ List.concat ws.
Proof.
  revert w. induction ws as [|x ws IH]; intros w H F.
  - cbn [flat_map List.concat]. rewrite !app_nil_r. induction w as [|c w IHw]; [easy|].
    assert (Hc : c <> 46) by (intros ->; apply H; now left).
    assert (E : forall r, drop_py (c :: r) = c :: drop_py r).
    { intros r. cbn [drop_py]. destruct c as [|c]; [easy|]. do 6 (destruct c as [c|c|]; try easy). }
    rewrite E, IHw; [easy|]. intros Hi. apply H. now right.
  - inversion F as [|? ? Hx Hs]; subst. induction w as [|c w IHw].
    + cbn [app flat_map List.concat]. change (drop_py (x ++ flat_map (fun y => u ".py" ++ y) ws) = x ++ List.concat ws). apply IH; [apply Hx|auto].
    + cbn [app]. assert (Hc : c <> 46) by (intros ->; apply H; now left).
      assert (E : forall r, drop_py (c :: r) = c :: drop_py r).
      { intros r. cbn [drop_py]. destruct c as [|c]; [easy|]. do 6 (destruct c as [c|c|]; try easy). }
      rewrite E, IHw; [easy|]. intros Hi. apply H. now right.
Qed.
Lemma pieces_no_slash w ws : ~ In 47 w -> Forall file_name ws -> ~ In 47 (w ++ flat_map (fun x => u ".py" ++ x) ws).
Proof.
  intros H F Hi. apply in_app_or in Hi as [Hi|Hi]; [easy|]. apply in_flat_map in Hi as [x [Hx Hi]].
  rewrite Forall_forall in F. destruct (F x Hx) as [_ G]. apply in_app_or in Hi as [Hi|Hi]; [|easy]. cbn in Hi. intuition lia.
Qed.
Lemma script_no_slash s : ~ In 47 s -> ~ In 47 (s ++ u ".py").
Proof. intros H Hi. apply in_app_or in Hi. destruct Hi as [Hi|Hi]; [easy|]. cbn in Hi. intuition lia. Qed.

Lemma name_of_script s : file_name s -> application_name (script s) = camel_to_snake s.
Proof. intros [H1 H2]. unfold application_name, script. rewrite last_split_nodir, drop_py_script; auto using script_no_slash. Qed.
Lemma name_of_path dir s : file_name s -> application_name (dir ++ 47 :: script s) = camel_to_snake s.
Proof. intros [H1 H2]. unfold application_name, script. rewrite basename_dir, drop_py_script; auto using script_no_slash. Qed.

Lemma name_of_pieces dir w ws : file_name w -> Forall file_name ws ->
  application_name (dir ++ 47 :: w ++ flat_map (fun x => u ".py" ++ x) ws) = camel_to_snake (w ++ List.concat ws).
Proof. intros [H1 H2] F. unfold application_name. rewrite basename_dir, drop_py_pieces; auto using pieces_no_slash. Qed.

Lemma upper_iff c : is_upper c = true <-> capital c.
Proof. unfold is_upper, capital. lia. Qed.
Lemma snake_rest s : (forall c, In c s -> ~ capital c) -> camel_rest s = s.
Proof.
  induction s as [|c s IH]; [easy|]. intros H. cbn [camel_rest]. unfold lower.
  assert (E : is_upper c = false) by (apply not_true_iff_false; rewrite upper_iff; apply H; now left). rewrite E. cbn [app].
  rewrite IH; [easy|]. intros d Hd. apply H. now right.
Qed.
Lemma snake_name s : (forall c, In c s -> ~ capital c) -> camel_to_snake s = s.
Proof.
  intros H. destruct s as [|c s]; [easy|]. cbn [camel_to_snake]. rewrite snake_rest by (intros d Hd; apply H; now right). unfold lower.
  assert (E : is_upper c = false) by (apply not_true_iff_false; rewrite upper_iff; apply H; now left). now rewrite E.
Qed.
Lemma lower_not_capital c : ~ capital (lower c).
Proof. unfold lower, capital, is_upper. destruct (_ && _) eqn:E; lia. Qed.
Lemma name_no_capital s c : In c (camel_to_snake s) -> ~ capital c.
Proof.
  assert (K : forall s c, In c (camel_rest s) -> ~ capital c).
  { clear. induction s as [|a s IH]; [easy|]. intros c. cbn [camel_rest]. intros Hi. apply in_app_or in Hi. destruct Hi as [Hi|Hi]; [|auto].
    destruct (is_upper a); cbn [In] in Hi.
    - destruct Hi as [<-|[<-|[]]]; [unfold capital, underscore; lia|apply lower_not_capital].
    - destruct Hi as [<-|[]]. apply lower_not_capital. }
  destruct s as [|a s]; [easy|]. cbn [camel_to_snake]. intros [<-|Hi]; [apply lower_not_capital|eauto].
Qed.
Lemma camel_rest_inj s t : ~ In 95 s -> ~ In 95 t -> camel_rest s = camel_rest t -> s = t.
Proof.
  revert t. induction s as [|a s IH]; intros [|b t] Hs Ht E; [easy| | |].
  - exfalso. cbn [camel_rest] in E. destruct (is_upper b); easy.
  - exfalso. cbn [camel_rest] in E. destruct (is_upper a); easy.
  - assert (Ha : a <> 95) by (intros ->; apply Hs; now left). assert (Hb : b <> 95) by (intros ->; apply Ht; now left).
    assert (Hs' : ~ In 95 s) by (intros H; apply Hs; now right). assert (Ht' : ~ In 95 t) by (intros H; apply Ht; now right).
    cbn [camel_rest] in E. unfold lower, underscore in E. destruct (is_upper a) eqn:Ea; destruct (is_upper b) eqn:Eb; cbn [app] in E; injection E as E1 E2.
    + f_equal; [lia|]. apply IH; easy.
    + exfalso. lia.
    + exfalso. lia.
    + f_equal; [lia|]. apply IH; easy.
Qed.
Lemma camel_inj s t : camel s -> camel t -> camel_to_snake s = camel_to_snake t -> s = t.
Proof.
  intros (_ & Hs & a & r & -> & Ha) (_ & Ht & b & q & -> & Hb) E. cbn [camel_to_snake] in E. unfold lower in E.
  apply upper_iff in Ha, Hb. rewrite Ha, Hb in E. injection E as E1 E2. f_equal; [lia|].
  apply camel_rest_inj; [| |easy]; intros H; [apply Hs|apply Ht]; now right.
Qed.
