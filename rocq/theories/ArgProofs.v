(** How argparse reads the arguments of the tools. *)
From Coq Require Import List ZArith NArith Bool String Ascii Lia Permutation.
From Verif Require Import Base SpanKeyModel SpanKeySpec RouterModel RouterSpec RouterProofs WireModel WireProofs ConfigModel ConfigSpec ManageModel CliModel CliSpec CliProofs ArgModel ArgSpec.
Import ListNotations.
Local Open Scope string_scope.

(** ** Strings *)
Lemma prefix_starts p s : String.prefix p s = true <-> starts p s.
Proof.
  revert s. induction p as [|c p IH]; intros s; [split; [intros _; exists s; reflexivity|destruct s; reflexivity]|].
  destruct s as [|d s]; [split; [discriminate|intros [r E]; discriminate]|]. cbn [String.prefix]. destruct (Ascii.ascii_dec c d) as [->|N].
  - rewrite IH. split; intros [r E]; exists r; [rewrite E; reflexivity|injection E as E; exact E].
  - split; [discriminate|]. intros [r E]. injection E as E1 _. congruence.
Qed.
Lemma cut_some s p e : cut s = Some (p, e) -> s = p ++ "=" ++ e.
Proof.
  revert p. induction s as [|c s IH]; intros p; cbn [cut]; [discriminate|]. destruct (Ascii.eqb_spec c "=") as [->|_]; [now intros [= <- <-]|].
  destruct (cut s) as [[p' e']|]; cbn [option_map fst snd]; [|discriminate]. intros [= <- <-]. cbn. now rewrite (IH p' eq_refl).
Qed.
Lemma cut_dashes s p e : String.prefix "--" s = true -> cut s = Some (p, e) -> (2 <= String.length p)%nat.
Proof.
  intros P C. apply prefix_starts in P as [r ->]. cbn in C. destruct (cut r) as [[p' e']|]; [|discriminate]. injection C as <- <-. cbn. lia.
Qed.
Lemma sub_all n s : (String.length s <= n)%nat -> substring 0 n s = s.
Proof. revert n. induction s as [|c s IH]; intros n L; destruct n; cbn in *; try reflexivity; [lia|]. now rewrite IH by lia. Qed.
Lemma dashed_two a : dashed a = true -> a <> "-" -> exists c r, a = String "-" (String c r).
Proof.
  destruct a as [|d a]; cbn [dashed]; [discriminate|]. intros E N. apply Ascii.eqb_eq in E as ->. destruct a as [|c r]; [now destruct N|]. eauto.
Qed.
Lemma sub_two c d r : substring 0 2 (String c (String d r)) = String c (String d "").
Proof. destruct r; reflexivity. Qed.
Lemma sub_rest c d r : substring 2 (String.length (String c (String d r)) - 2) (String c (String d r)) = r.
Proof. cbn [String.length Nat.sub]. rewrite Nat.sub_0_r. cbn [substring]. now apply sub_all. Qed.

(** ** Names *)
Lemma sget_in {V} k (d : list (string * V)) v : sget k d = Some v -> In (k, v) d.
Proof. intros H. apply sget_finds in H as (a & b & -> & _). apply in_or_app. right. now left. Qed.
Lemma names_known opts n act : In (n, act) (names opts) -> known opts n /\ (act = Help \/ exists o, act = Opt o /\ In o opts /\ name_of o n).
Proof.
  unfold names, known, name_of. intros [E|[E|I]]; [injection E as <- <-; auto|injection E as <- <-; auto|]. apply in_flat_map in I as (o & I & [E|[E|[]]]); injection E as <- <-; split; eauto 8.
Qed.
Lemma known_names opts n : known opts n -> exists act, In (n, act) (names opts).
Proof.
  unfold names, known, name_of. intros [->|[->|(o & I & N)]]; [exists Help; now left|exists Help; right; now left|]. exists (Opt o). right. right. apply in_flat_map. exists o. split; [exact I|].
  destruct N as [-> | ->]; [now left|right; now left].
Qed.

(** What an argument was taken for, it says. *)
Definition written (opts : list opt) (a n : string) (sep : bool) (e : option string) : Prop :=
  match e with
  | None => means opts a n
  | Some x => (sep = true /\ exists p, a = p ++ "=" ++ x /\ means opts p n) \/ (sep = false /\ a = n ++ x /\ String.length n = 2%nat)
  end.
Lemma flat_single {A B} (f : A -> list B) l t : flat_map f l = [t] -> (exists x, In x l /\ f x = [t]) /\ forall y u, In y l -> In u (f y) -> u = t.
Proof.
  intros E. split.
  - assert (I : In t (flat_map f l)) by (rewrite E; now left). apply in_flat_map in I as (x & I & F). exists x. split; [exact I|].
    apply in_split in I as (l1 & l2 & ->). rewrite flat_map_app in E. cbn [flat_map] in E. destruct (f x) as [|b [|b' r]]; [destruct F| |].
    + destruct F as [->|[]]. reflexivity.
    + apply (f_equal (@List.length B)) in E. rewrite !app_length in E. cbn in E. lia.
  - intros y u I F. assert (J : In u (flat_map f l)) by (apply in_flat_map; eauto). rewrite E in J. destruct J as [->|[]]. reflexivity.
Qed.
Lemma matches_one opts a t : dashed a = true -> a <> "-" -> matches opts a = [t] -> exists act n sep e, t = Wants (Some act) n sep e /\ In (n, act) (names opts) /\ written opts a n sep e.
Proof.
  intros D N. unfold matches. destruct (String.prefix "--" a) eqn:P.
  - assert (G : forall p sep e, (2 <= String.length p)%nat -> flat_map (fun na : string * action => if String.prefix p (fst na) then [Wants (Some (snd na)) (fst na) sep e] else []) (names opts) = [t] ->
      exists act n, t = Wants (Some act) n sep e /\ In (n, act) (names opts) /\ means opts p n).
    { intros p sep e L H. apply flat_single in H as [([n act] & I & F) U]. cbn [fst snd] in F. destruct (String.prefix p n) eqn:Q; [|discriminate]. injection F as <-. exists act, n. split; [reflexivity|]. split; [exact I|].
      right. split; [exact L|]. split; [now apply prefix_starts|]. intros m K S. apply known_names in K as [b K]. apply prefix_starts in S.
      specialize (U (m, b) (Wants (Some b) m sep e) K). cbn [fst snd] in U. rewrite S in U. specialize (U ltac:(now left)). now injection U. }
    destruct (cut a) as [[p e]|] eqn:C.
    + intros H. apply G in H as (act & n & -> & I & M); [|eapply cut_dashes; eauto]. exists act, n, true, (Some e). split; [reflexivity|]. split; [exact I|]. left. split; [reflexivity|]. exists p. split; [now apply cut_some|exact M].
    + intros H. apply prefix_starts in P as [r E]. apply G in H as (act & n & -> & I & M); [|subst a; cbn; lia]. exists act, n, false, None. auto.
  - destruct (dashed_two a D N) as (c & r & ->). rewrite sub_two, sub_rest. intros H. apply flat_single in H as [([n act] & I & F) U]. cbn [fst snd] in F.
    destruct (String.eqb_spec n (String "-" (String c ""))) as [->|X].
    + injection F as <-. exists act, (String "-" (String c "")), false, (Some r). split; [reflexivity|]. split; [exact I|]. right. auto.
    + destruct (String.prefix _ n) eqn:Q; [|discriminate]. injection F as <-. exists act, n, false, None. split; [reflexivity|]. split; [exact I|]. right. split; [cbn; lia|]. split; [now apply prefix_starts|].
      intros m K S. apply known_names in K as [b K]. apply prefix_starts in S. pose proof (U (m, b)) as U'. cbn [fst snd] in U'. rewrite S in U'.
      destruct (String.eqb m _); [specialize (U' _ K ltac:(now left)); discriminate U'|]. specialize (U' _ K ltac:(now left)). now injection U'.
Qed.
Lemma optional_says opts a act n sep e : parse_optional opts a = Some (Wants (Some act) n sep e) -> In (n, act) (names opts) /\ written opts a n sep e.
Proof.
  unfold parse_optional. destruct (dashed a) eqn:D; cbn [negb]; [|discriminate]. destruct (sget a (names opts)) as [b|] eqn:S.
  { intros [= -> <- <- <-]. apply sget_in in S. split; [exact S|now left]. }
  destruct (String.eqb_spec a "-") as [|N]; [discriminate|].
  assert (W : match matches opts a with [t] => Some t | [] => if negative_number a then Some Value else if has_space a then Some Value else Some (Wants None a false None) | _ => None end = Some (Wants (Some act) n sep e) ->
    In (n, act) (names opts) /\ written opts a n sep e).
  { destruct (matches opts a) as [|t [|u r]] eqn:M; [destruct (negative_number a); [discriminate|]; destruct (has_space a); discriminate| |discriminate].
    intros [= ->]. apply matches_one in M as (act' & n' & sep' & e' & E & I & W); auto. injection E as <- <- <- <-. auto. }
  destruct (cut a) as [[p x]|] eqn:C; [|exact W]. destruct (sget p (names opts)) as [b|] eqn:Sp; [|exact W]. intros [= -> <- <- <-]. apply sget_in in Sp. split; [exact Sp|].
  left. split; [reflexivity|]. exists p. split; [now apply cut_some|now left].
Qed.

(** Flags with a name of one letter could be joined with other options; these tools have none but help. *)
Definition long_flags (opts : list opt) : bool := forallb (fun o => match kind o with Flag => (2 <? String.length (short o))%nat && (2 <? String.length (long o))%nat | _ => true end) opts.
Lemma long_flag opts o n : long_flags opts = true -> In o opts -> kind o = Flag -> name_of o n -> String.length n <> 2%nat.
Proof.
  intros L I K N. unfold long_flags in L. rewrite forallb_forall in L. specialize (L o I). rewrite K in L. apply andb_prop in L as [A B]. apply Nat.ltb_lt in A, B. destruct N as [-> | ->]; lia.
Qed.
Lemma takes_kind o : takes (Opt o) = true <-> kind o <> Flag.
Proof. cbn. destruct (kind o); split; congruence. Qed.
(** The actions of one argument: nothing before what follows, or one value, or help comes first. *)
Lemma actions_cases opts a act n sep e l t : long_flags opts = true -> In (n, act) (names opts) -> written opts a n sep e -> actions_of opts act n sep e = Some (l, t) ->
  (e = None /\ l = [] /\ t = Follow act) \/ (exists x, e = Some x /\ l = [(act, Some x)] /\ t = Stop /\ takes act = true) \/ (exists r, l = (Help, None) :: r).
Proof.
  intros L I W. unfold actions_of. destruct e as [x|]; [|intros [= <- <-]; auto]. intros J. right. destruct (takes act) eqn:T.
  - left. exists x. destruct x; cbn [joined] in J; rewrite T in J; injection J as <- <-; auto.
  - right. destruct x as [|c r]; cbn [joined] in J; rewrite T in J; [discriminate|]. destruct W as [[-> _]|(-> & _ & Ln)]; [rewrite orb_true_r in J; discriminate|].
    assert (A : act = Help).
    { apply names_known in I as [_ [->|(o & -> & I & N)]]; [reflexivity|]. exfalso. refine (long_flag opts o n L I _ N Ln). destruct (kind o) eqn:K; [reflexivity|cbn in T; rewrite K in T; discriminate..]. }
    subst act. destruct (negb (one_dash n) || false || Ascii.eqb c "-"); [discriminate|]. destruct (sget _ (names opts)); [|injection J as <- <-; eauto].
    match type of J with match ?m with Some _ => _ | None => _ end = _ => destruct m as [[l' t']|]; [|discriminate] end. injection J as <- <-. eauto.
Qed.

(** ** Where the values come from *)
Definition came_line (opts : list opt) (args : list string) (d : string) (v : value) : Prop :=
  exists o, In o opts /\ dest o = d /\ ((kind o = Flag /\ v = VTrue /\ sets opts args o) \/ (kind o <> Flag /\ exists s, gives opts args o s /\ convert (kind o) s = Some v)).
Lemma gives_more opts pre args o s : gives opts args o s -> gives opts (pre ++ args) o s.
Proof.
  intros [(a & n & b & f & N & M & ->)|[(a & n & N & M & I)|(n & N & L & I)]].
  - left. exists a, n, (pre ++ b)%list, f. rewrite app_assoc. auto.
  - right. left. exists a, n. repeat split; auto. apply in_or_app. now right.
  - right. right. exists n. repeat split; auto. apply in_or_app. now right.
Qed.
Lemma came_line_more opts pre args d v : came_line opts args d v -> came_line opts (pre ++ args) d v.
Proof.
  intros (o & I & D & C). exists o. split; [exact I|]. split; [exact D|]. destruct C as [(K & V & a & n & A & N & M)|(K & s & G & V)].
  - left. split; [exact K|]. split; [exact V|]. exists a, n. split; [apply in_or_app; now right|auto].
  - right. split; [exact K|]. exists s. split; [now apply gives_more|exact V].
Qed.
Lemma act_one opts given a v k g x : act opts given [(a, v)] k = Walked g x -> exists o w, a = Opt o /\ k (sset (dest o) w given) = Walked g x /\ excluded opts given o = false /\
  ((kind o = Flag /\ w = VTrue) \/ (kind o <> Flag /\ exists s, v = Some s /\ convert (kind o) s = Some w)).
Proof.
  cbn [act]. destruct a as [|o]; [discriminate|]. destruct (kind o) eqn:K.
  1: destruct (excluded opts given o) eqn:X; [discriminate|]; intros H; exists o, VTrue; auto 8.
  all: destruct v as [s|]; [|discriminate]; match goal with |- context [convert ?kd s] => destruct (convert kd s) as [w|] eqn:C; [|discriminate] end;
    destruct (excluded opts given o) eqn:X; [discriminate|]; intros H; exists o, w; repeat split; auto; right; (split; [congruence|]); exists s; rewrite K; auto.
Qed.
Lemma consume_values opts l : forall given extras, consume opts given extras (map (fun b => (b, Value)) l) = Walked given (match l with [] => extras | _ => true end).
Proof. induction l as [|b l IH]; intros given extras; cbn [map consume]; [reflexivity|]. rewrite IH. destruct l; reflexivity. Qed.

(** One step of [consume] that does not end the program. *)
Inductive turn (opts : list opt) (given : dict) (extras : bool) : list (string * token) -> dict -> bool -> list (string * token) -> Prop :=
| turn_skip : forall b t rest, (forall act n sep e, t <> Wants (Some act) n sep e) -> turn opts given extras ((b, t) :: rest) given true rest
| turn_flag : forall b o n rest sep, kind o = Flag -> excluded opts given o = false -> turn opts given extras ((b, Wants (Some (Opt o)) n sep None) :: rest) (sset (dest o) VTrue given) extras rest
| turn_next : forall b o n rest sep s w, kind o <> Flag -> excluded opts given o = false -> convert (kind o) s = Some w ->
    turn opts given extras ((b, Wants (Some (Opt o)) n sep None) :: (s, Value) :: rest) (sset (dest o) w given) extras rest
| turn_same : forall b o n rest sep s w, kind o <> Flag -> excluded opts given o = false -> convert (kind o) s = Some w ->
    turn opts given extras ((b, Wants (Some (Opt o)) n sep (Some s)) :: rest) (sset (dest o) w given) extras rest.
Lemma consume_turn opts given extras b t toks g x : long_flags opts = true ->
  (forall act n sep e, t = Wants (Some act) n sep e -> In (n, act) (names opts) /\ written opts b n sep e) ->
  consume opts given extras ((b, t) :: toks) = Walked g x -> exists given' extras' toks', turn opts given extras ((b, t) :: toks) given' extras' toks' /\ consume opts given' extras' toks' = Walked g x.
Proof.
  intros L Wf H. destruct t as [| |[ac|] n sep e].
  1, 2, 4: cbn [consume] in H; exists given, true, toks; split; [apply turn_skip; congruence|exact H].
  cbn [consume] in H. destruct (Wf ac n sep e eq_refl) as [I W]. destruct (actions_of opts ac n sep e) as [[l t]|] eqn:A; [|discriminate].
  destruct (actions_cases _ _ _ _ _ _ _ _ L I W A) as [(-> & -> & ->)|[(s & -> & -> & -> & T)|(r & ->)]].
  - cbn [app] in H. destruct (takes ac) eqn:T.
    + destruct toks as [|[s [| |? ? ? ?]] rest']; try discriminate. apply act_one in H as (o & w & -> & H & X & [[K _]|(K & s' & E & V)]); [apply takes_kind in T; contradiction|].
      injection E as <-. do 3 eexists. split; [eapply turn_next; eauto|exact H].
    + apply act_one in H as (o & w & -> & H & X & [[K ->]|(K & s' & E & V)]); [|discriminate]. do 3 eexists. split; [now apply turn_flag|exact H].
  - apply act_one in H as (o & w & -> & H & X & [[K _]|(K & s' & E & V)]); [apply takes_kind in T; contradiction|]. injection E as <-. do 3 eexists. split; [eapply turn_same; eauto|exact H].
  - destruct t as [| |b']; [cbn [act] in H; discriminate..|]. destruct (takes b'); [destruct toks as [|[s [| |? ? ? ?]] rest']; try discriminate|]; cbn [app act] in H; discriminate.
Qed.
Lemma classify_cons opts a rest toks : classify opts (a :: rest) = Some toks ->
  (a = "--" /\ toks = (a, Dashes) :: map (fun b => (b, Value)) rest) \/ (a <> "--" /\ exists t toks', toks = (a, t) :: toks' /\ parse_optional opts a = Some t /\ classify opts rest = Some toks').
Proof.
  cbn [classify]. destruct (String.eqb_spec a "--") as [->|N]; [intros [= <-]; auto|]. destruct (parse_optional opts a) as [t|]; [|discriminate].
  destruct (classify opts rest) as [toks'|]; cbn [option_map]; [|discriminate]. intros [= <-]. right. split; [exact N|]. eauto.
Qed.
Lemma consume_came opts : long_flags opts = true -> forall args toks, classify opts args = Some toks -> forall given extras g x, consume opts given extras toks = Walked g x ->
  forall d v, sget d g = Some v -> sget d given = Some v \/ came_line opts args d v.
Proof.
  intros L args. remember (List.length args) as m eqn:Lm. assert (Le : (List.length args <= m)%nat) by lia. clear Lm. revert args Le.
  induction m as [|m IH]; intros args Le toks C given extras g x H d v G.
  { destruct args; [|cbn in Le; lia]. injection C as <-. injection H as <- <-. now left. }
  destruct args as [|a rest]; [injection C as <-; injection H as <- <-; now left|]. cbn [List.length] in Le.
  apply classify_cons in C as [[-> ->]|(N & t & toks' & -> & P & C)].
  { cbn [consume] in H. rewrite consume_values in H. injection H as <- <-. now left. }
  assert (Wf : forall act n sep e, t = Wants (Some act) n sep e -> In (n, act) (names opts) /\ written opts a n sep e) by (intros act n sep e ->; now apply optional_says).
  apply consume_turn in H as (given' & extras' & toks'' & T & H); [|exact L|exact Wf]. inversion T as [b t' r Sk|b o n r sep K X|b o n r sep s w K X V|b o n r sep s w K X V]; subst.
  - destruct (IH rest ltac:(lia) _ C _ _ _ _ H d v G) as [Y|Y]; [now left|right; apply (came_line_more opts [a]); exact Y].
  - destruct (Wf _ _ _ _ eq_refl) as [I W]. apply names_known in I as [_ [Y|(o' & [= <-] & I & Nm)]]; [discriminate|].
    destruct (IH rest ltac:(lia) _ C _ _ _ _ H d v G) as [Y|Y]; [|right; apply (came_line_more opts [a]); exact Y].
    rewrite sget_sset in Y. destruct (String.eqb_spec d (dest o)) as [->|_]; [|now left]. injection Y as <-. right. exists o. repeat split; auto. left. repeat split; auto. exists a, n. split; [now left|auto].
  - destruct (Wf _ _ _ _ eq_refl) as [I W]. apply names_known in I as [_ [Y|(o' & [= <-] & I & Nm)]]; [discriminate|].
    destruct rest as [|s' rest']; [discriminate|]. assert (C' := C). apply classify_cons in C' as [[-> E]|(Ns & t & toks3 & E & P' & C')]; [discriminate|]. injection E as E1 E2 E3; subst s' t toks3.
    destruct (IH rest' ltac:(cbn in Le; lia) _ C' _ _ _ _ H d v G) as [Y|Y]; [|right; apply (came_line_more opts [a; s]); exact Y].
    rewrite sget_sset in Y. destruct (String.eqb_spec d (dest o)) as [->|_]; [|now left]. injection Y as <-. right. exists o. repeat split; auto. right. split; [exact K|]. exists s. split; [|exact V].
    left. exists a, n, [], rest'. auto.
  - destruct (Wf _ _ _ _ eq_refl) as [I W]. apply names_known in I as [_ [Y|(o' & [= <-] & I & Nm)]]; [discriminate|].
    destruct (IH rest ltac:(lia) _ C _ _ _ _ H d v G) as [Y|Y]; [|right; apply (came_line_more opts [a]); exact Y].
    rewrite sget_sset in Y. destruct (String.eqb_spec d (dest o)) as [->|_]; [|now left]. injection Y as <-. right. exists o. repeat split; auto. right. split; [exact K|]. exists s. split; [|exact V].
    destruct W as [(-> & p & -> & M)|(-> & -> & Ln)]; [right; left; exists p, n|right; right; exists n]; repeat split; auto; now left.
Qed.
Lemma read_came opts args ns d v : long_flags opts = true -> read_args opts args = Reads ns -> sget d ns = Some v -> came_line opts args d v \/ exists o, In o opts /\ dest o = d /\ default o = v.
Proof.
  unfold read_args. intros L. destruct (classify opts args) as [toks|] eqn:C; [|discriminate]. destruct (consume opts [] false toks) as [given extras|] eqn:K; [|discriminate].
  destruct (forallb _ opts && negb extras); [|discriminate]. intros [= <-] H. apply sget_in, in_map_iff in H as (o & X & I). injection X as <- <-. destruct (sget (dest o) given) as [w|] eqn:G.
  - destruct (consume_came opts L args toks C _ _ _ _ K (dest o) w G) as [Y|Y]; [discriminate|now left].
  - right. exists o. auto.
Qed.
