(** The tools behind argparse: what they send was said, and what CliModel reads is read in the same way. *)
From Coq Require Import List ZArith NArith Bool String Ascii Lia Permutation.
From Verif Require Import Base SpanKeyModel SpanKeySpec RouterModel RouterSpec RouterProofs WireModel WireProofs ConfigModel ConfigSpec ManageModel CliModel CliSpec CliProofs ArgModel ArgSpec ArgProofs.
Import ListNotations.
Local Open Scope string_scope.

(** ** bem sends only what was said *)
Lemma said_plain args r route op : sget route endpoint_requests = Some (plain op) -> says args op -> only_said args r [(route, queue_request r)].
Proof.
  intros E R. exists route, (queue_request r). split; [reflexivity|]. intros k r' op' V. rewrite arrives by auto using proper_queue. rewrite E, plain_queue. intros [= <- <-]. auto.
Qed.
Lemma said_item args r key route (f : N -> eop) : sget route endpoint_requests = Some (about_key f) -> (forall k, says args (f k)) -> only_said args r [(route, item_request r key)].
Proof.
  intros E R. exists route, (item_request r key). split; [reflexivity|]. intros k r' op' V. rewrite arrives by auto using proper_item. rewrite E. unfold about_key.
  change (read_route (item_request r key)) with (Some r). destruct (read_key _) as [k'|]; [|discriminate]. intros [= <- <-]. auto.
Qed.
Lemma read_flag opts args ns d : long_flags opts = true -> read_args opts args = Reads ns -> (forall o, In o opts -> dest o = d -> default o = VFalse /\ kind o = Flag) -> forall v, attr ns d = Ok v -> truth v = true ->
  exists o, In o opts /\ dest o = d /\ sets opts args o.
Proof.
  intros L P D v A T. unfold attr in A. destruct (sget d ns) as [w|] eqn:S; [|discriminate]. injection A as ->. destruct (read_came opts args ns d v L P S) as [(o & I & E & [(K & V & M)|(K & _)])|(o & I & E & F)].
  - exists o. auto.
  - destruct (D o I E). contradiction.
  - destruct (D o I E) as [X _]. rewrite X in F. subst v. discriminate.
Qed.
Theorem bem_line_safe args c l : bem_line args = Sends c l -> exists r, gives bem_options args route_key_option r /\ only_said args r l.
Proof.
  unfold bem_line, run_tool. destruct (read_args bem_options args) as [|ns] eqn:P; [discriminate|]. intros H. apply queue_main_sends in H as (c' & r & Rr & H). exists r. split.
  { unfold attr in Rr. destruct (sget "route_key" ns) as [w|] eqn:S; [|discriminate]. injection Rr as ->. destruct (read_came bem_options _ _ _ _ eq_refl P S) as [(o & I & E & K)|(o & I & E & F)].
    - destruct K as [(_ & K & _)|(K & s & G & V)]; [discriminate|]. cbn in I. repeat (destruct I as [<-|I]; [try discriminate E; injection V as ->; exact G|]). destruct I.
    - cbn in I. repeat (destruct I as [<-|I]; [try discriminate E; discriminate F|]). destruct I. }
  assert (Fl : forall d v, attr ns d = Ok v -> truth v = true -> In d (map dest (filter alone bem_options)) -> exists o, In o bem_options /\ dest o = d /\ sets bem_options args o).
  { intros d v A T I. apply (read_flag bem_options args ns d eq_refl P) with (v := v); auto. intros o O E. cbn in O, I. repeat (destruct O as [<-|O]; [try (split; reflexivity); exfalso; subst d; cbn in I; repeat (destruct I as [I|I]; [discriminate I|]); destruct I|]). destruct O. }
  unfold do_endpoint_action in H. destruct (attrs ns _) as [vs|] eqn:As; cbn [get] in H; [|discriminate]. destruct (any_true_check vs) eqn:An; cbn [negb] in H.
  2: { injection H as <- <-. apply (said_plain args r _ Data); [reflexivity|now left]. }
  apply first_flag_found in H as [[e H]|[(n & route & v & I & A & T & H)|[Off H]]]; [discriminate| |].
  - injection H as -> ->. destruct (Fl n v A T) as (o & O & E & a & nm & Ia & Nm & M).
    { cbn in I |- *. repeat (destruct I as [I|I]; [injection I as <- <-; tauto|]). destruct I. }
    assert (Mm : forall s l' op, In (s, l', op) bem_asks -> short o = s -> long o = l' -> says args op).
    { intros s l' op B S L. right. left. exists s, l', a. split; [exact B|]. split; [exact Ia|]. destruct Nm as [-> | ->]; [left|right]; congruence. }
    cbn in I. repeat (destruct I as [I|I]; [injection I as <- <-; cbn in O; repeat (destruct O as [<-|O]; [first [discriminate E|eapply said_plain; [reflexivity|]; (eapply Mm; [|reflexivity|reflexivity]); cbn; tauto]|]); destruct O|]). destruct I.
  - symmetry in H. unfold item_actions in H. destruct (attr ns "span_key") as [sk|]; cbn [get] in H; [|discriminate]. destruct sk; try discriminate. destruct (String.eqb s ""); [discriminate|].
    destruct (key_of_text (to_text s)) as [key|]; cbn [get] in H; [|discriminate]. apply first_flag_found in H as [[e H]|[(n & route & v & I & A & T & H)|[Off' H]]]; [discriminate| |].
    + injection H as -> ->. destruct (Fl n v A T) as (o & O & E & a & nm & Ia & Nm & M).
      { cbn in I |- *. repeat (destruct I as [I|I]; [injection I as <- <-; tauto|]). destruct I. }
      assert (Mm : forall s l' f, In (s, l', f) bem_asks_item -> short o = s -> long o = l' -> forall k, says args (f k)).
      { intros s' l' f B S L k. right. right. exists s', l', a, f, k. split; [reflexivity|]. split; [exact B|]. split; [exact Ia|]. destruct Nm as [-> | ->]; [left|right]; congruence. }
      cbn in I. repeat (destruct I as [I|I]; [injection I as <- <-; cbn in O; repeat (destruct O as [<-|O]; [first [discriminate E|eapply said_item; [reflexivity|]; (eapply Mm; [|reflexivity|reflexivity]); cbn; tauto]|]); destruct O|]). destruct I.
    + exfalso. destruct (attrs_true ns _ vs As An) as (n & v & I & A & T).
      assert (X : exists route, In (n, route) bem_plain \/ In (n, route) bem_items).
      { cbn in I |- *. repeat (destruct I as [<-|I]; [eexists; tauto|]). destruct I. }
      destruct X as [route [X|X]]; [destruct (Off n route X) as (w & B & F)|destruct (Off' n route X) as (w & B & F)]; rewrite A in B; injection B as <-; congruence.
Qed.

(** The key of a request that is about one was given. *)
Theorem bem_line_key args c l : bem_line args = Sends c l -> forall route data k r op s l' f n, In (route, data) l -> valid_key k -> endpoint_request (request_text route k data) = Some (r, op) ->
  In (s, l', f) bem_asks_item -> op = f n -> exists text key, gives bem_options args span_key_option text /\ key_of_text (to_text text) = Ok key /\ (valid_key key -> n = N_of_key key).
Proof.
  unfold bem_line, run_tool. destruct (read_args bem_options args) as [|ns] eqn:P; [discriminate|]. intros H route data k r op s l' f n Il V R B E. apply queue_main_sends in H as (c' & r0 & _ & H).
  assert (NP : forall rt op0, In (rt, queue_request r0) l -> sget rt endpoint_requests = Some (plain op0) -> l = [(rt, queue_request r0)] -> op0 <> f n -> False).
  { intros rt op0 _ Sg -> Ne. destruct Il as [Il|[]]. injection Il as <- <-. rewrite arrives in R by auto using proper_queue. rewrite Sg, plain_queue in R. injection R as _ R. congruence. }
  unfold do_endpoint_action in H. destruct (attrs ns _) as [vs|] eqn:As; cbn [get] in H; [|discriminate]. destruct (any_true_check vs) eqn:An; cbn [negb] in H.
  2: { injection H as <- <-. exfalso. eapply (NP _ Data); [now left|reflexivity|reflexivity|]. cbn in B. repeat (destruct B as [B|B]; [injection B as <- <- <-; discriminate|]). destruct B. }
  apply first_flag_found in H as [[e H]|[(m & rt & v & I & A & T & H)|[Off H]]]; [discriminate| |].
  - injection H as -> ->. exfalso. cbn in I. repeat (destruct I as [I|I]; [injection I as <- <-; eapply NP; [now left|reflexivity|reflexivity|]; cbn in B; repeat (destruct B as [B|B]; [injection B as <- <- <-; discriminate|]); destruct B|]). destruct I.
  - symmetry in H. unfold item_actions in H. destruct (attr ns "span_key") as [sk|] eqn:Sk; cbn [get] in H; [|discriminate]. destruct sk as [| | |text|]; try discriminate. destruct (String.eqb text ""); [discriminate|].
    destruct (key_of_text (to_text text)) as [key|] eqn:Kt; cbn [get] in H; [|discriminate]. exists text, key. split; [|split; [exact Kt|]].
    + unfold attr in Sk. destruct (sget "span_key" ns) as [w|] eqn:S; [|discriminate]. injection Sk as ->. destruct (read_came bem_options _ _ _ _ eq_refl P S) as [(o & I & D & K)|(o & I & D & F)].
      * destruct K as [(_ & K & _)|(K & s1 & G & Vt)]; [discriminate|]. cbn in I. repeat (destruct I as [<-|I]; [try discriminate D; injection Vt as ->; exact G|]). destruct I.
      * cbn in I. repeat (destruct I as [<-|I]; [try discriminate D; discriminate F|]). destruct I.
    + intros Vk. apply first_flag_found in H as [[e H]|[(m & rt & v & I & A & T & H)|[_ H]]]; [discriminate| |injection H as H1 H2; subst l; destruct Il].
      injection H as -> ->. destruct Il as [Il|[]]. injection Il as <- <-. rewrite arrives in R by auto using proper_item.
      assert (X : exists g, sget rt endpoint_requests = Some (about_key g) /\ (g = ReprocessOne \/ g = InspectRequest \/ g = PopRequest)).
      { cbn in I. repeat (destruct I as [I|I]; [injection I as <- <-; eexists; split; [reflexivity|tauto]|]). destruct I. }
      destruct X as (g & Sg & Hg). rewrite Sg in R. unfold about_key in R. change (read_route (item_request r0 key)) with (Some r0) in R. change (read_key (item_request r0 key)) with (option_map N_of_key (key_of_json (key_json key))) in R.
      rewrite key_round_trip in R by exact Vk. cbn [option_map] in R. injection R as _ R. rewrite E in R. cbn in B.
      repeat (destruct B as [B|B]; [injection B as <- <- <-; destruct Hg as [-> |[-> | ->]]; try discriminate R; injection R as R; now symmetry|]). destruct B.
Qed.

(** ** bsm *)
Lemma read_names opts args ns : read_args opts args = Reads ns -> forall d, (forall o, In o opts -> dest o <> d) -> sget d ns = None.
Proof.
  unfold read_args. destruct (classify opts args) as [toks|]; [|discriminate]. destruct (consume opts [] false toks) as [given extras|]; [|discriminate]. destruct (forallb _ opts && negb extras); [|discriminate]. intros [= <-] d H.
  induction opts as [|o opts IH]; [reflexivity|]. cbn [map sget]. destruct (String.eqb_spec d (dest o)) as [E|_]; [exfalso; exact (H o (or_introl eq_refl) (eq_sym E))|]. apply IH. intros o' I. apply H. now right.
Qed.
Theorem bsm_line_never args c l : bsm_line args <> Sends c l.
Proof.
  unfold bsm_line, run_tool. destruct (read_args bsm_options args) as [|ns] eqn:P; [discriminate|]. intros H. apply queue_main_sends in H as (c' & r & _ & H).
  unfold do_sender_action in H. cbn [any_attr] in H. unfold attr at 1 in H. rewrite (read_names _ _ _ P) in H; [discriminate|].
  intros o I. cbn in I. repeat (destruct I as [<-|I]; [discriminate|]). destruct I.
Qed.

(** An option that is needed has a value that was given. *)
Lemma read_needed opts args ns o v : long_flags opts = true -> read_args opts args = Reads ns -> In o opts -> needed o = true -> sget (dest o) ns = Some v -> came_line opts args (dest o) v.
Proof.
  unfold read_args. intros L. destruct (classify opts args) as [toks|] eqn:C; [|discriminate]. destruct (consume opts [] false toks) as [given extras|] eqn:K; [|discriminate].
  destruct (forallb _ opts) eqn:F; cbn [andb]; [|discriminate]. destruct (negb extras); [|discriminate]. intros [= <-] I Nd H. rewrite forallb_forall in F. specialize (F o I). rewrite Nd in F. cbn [implb] in F.
  unfold shas in F. destruct (sget (dest o) given) as [w|] eqn:G; [|discriminate]. apply sget_in, in_map_iff in H as (p & X & _). injection X as X1 X2. rewrite X1, G in X2. subst w.
  destruct (consume_came opts L args toks C _ _ _ _ K (dest o) v G) as [Y|Y]; [discriminate|exact Y].
Qed.

(** ** What CliModel reads *)
Definition good_name (n : string) : bool := dashed n && negb (String.eqb n "--") && negb (String.eqb n "-h") && negb (String.eqb n "--help").
Definition good_names (opts : list opt) : bool := forallb (fun o => good_name (short o) && good_name (long o)) opts.
Lemma find_names opts a o : good_names opts = true -> find_option opts a = Some o -> dashed a = true /\ a <> "--" /\ sget a (names opts) = Some (Opt o).
Proof.
  intros G F. assert (Ga : good_name a = true).
  { apply find_option_in in F as [I N]. unfold good_names in G. rewrite forallb_forall in G. specialize (G o I). apply andb_prop in G as [G1 G2]. destruct N as [-> | ->]; assumption. }
  unfold good_name in Ga. rewrite !andb_true_iff, !negb_true_iff in Ga. destruct Ga as [[[D N] H1] H2]. split; [exact D|]. split; [now apply String.eqb_neq|].
  unfold names. cbn [sget]. rewrite H1, H2. clear - F. unfold find_option in F. induction opts as [|p opts IH]; [discriminate|]. cbn [find flat_map app sget] in F |- *.
  rewrite (String.eqb_sym a (short p)), (String.eqb_sym a (long p)). destruct (String.eqb (short p) a); cbn [orb] in F; [congruence|]. destruct (String.eqb (long p) a); cbn [orb] in F; [congruence|]. now apply IH.
Qed.
Lemma take_read opts : good_names opts = true -> forall args given given', take opts given args = Some given' -> exists toks, classify opts args = Some toks /\ consume opts given false toks = Walked given' false.
Proof.
  intros G args. remember (List.length args) as m eqn:Lm. assert (Le : (List.length args <= m)%nat) by lia. clear Lm. revert args Le.
  induction m as [|m IH]; intros args Le given given' T.
  { destruct args; [|cbn in Le; lia]. injection T as <-. exists []. auto. }
  destruct args as [|a rest]; [injection T as <-; exists []; auto|]. cbn [List.length] in Le. cbn [take] in T. destruct (find_option opts a) as [o|] eqn:F; [|discriminate].
  destruct (excluded opts given o) eqn:X; [discriminate|]. apply find_names in F as (D & N & S); [|exact G].
  assert (P : parse_optional opts a = Some (Wants (Some (Opt o)) a false None)) by (unfold parse_optional; now rewrite D, S).
  assert (C : forall r toks, classify opts r = Some toks -> classify opts (a :: r) = Some ((a, Wants (Some (Opt o)) a false None) :: toks)).
  { intros r toks E. cbn [classify]. destruct (String.eqb_spec a "--"); [contradiction|]. now rewrite P, E. }
  assert (K : kind o = Flag /\ take opts (sset (dest o) VTrue given) rest = Some given' \/
      kind o <> Flag /\ exists s rest' x, rest = s :: rest' /\ dashed s = false /\ convert (kind o) s = Some x /\ take opts (sset (dest o) x given) rest' = Some given').
  { destruct (kind o) eqn:K; [left; auto| | |]; right; (split; [discriminate|]); (destruct rest as [|s rest']; [discriminate|]); (destruct (dashed s) eqn:Ds; [discriminate|]);
      match type of T with context [convert ?k s] => destruct (convert k s) as [x|] eqn:V; [|discriminate] end; exists s, rest', x; auto. }
  destruct K as [[K T']|(K & s & rest' & x & -> & Ds & V & T')].
  - destruct (IH rest ltac:(lia) _ _ T') as (toks & E & W). exists ((a, Wants (Some (Opt o)) a false None) :: toks). split; [now apply C|]. cbn [consume actions_of takes]. rewrite K. cbn [app act]. rewrite K, X. exact W.
  - cbn [List.length] in Le. destruct (IH rest' ltac:(lia) _ _ T') as (toks & E & W). exists ((a, Wants (Some (Opt o)) a false None) :: (s, Value) :: toks). split.
    + apply C. cbn [classify]. destruct (String.eqb_spec s "--") as [->|_]; [discriminate|]. unfold parse_optional. rewrite Ds. cbn [negb]. now rewrite E.
    + cbn [consume actions_of]. rewrite (proj2 (takes_kind o) K). cbn [app act]. destruct (kind o) eqn:Ko; [now destruct K| | |]; rewrite V, X; exact W.
Qed.
Lemma tool_read opts main args c l : good_names opts = true -> tool opts main args = Sends c l -> run_tool opts main args = Sends c l.
Proof.
  intros G. unfold tool, run_tool, parse_args, read_args. destruct (take opts [] args) as [given|] eqn:T; [|discriminate]. destruct (take_read opts G args [] given T) as (toks & -> & ->).
  destruct (forallb _ opts); [|discriminate]. intros H. exact H.
Qed.

(** ** Actions exclude each other *)
Definition alone_once (opts : list opt) (given : dict) : Prop :=
  forall o p, In o opts -> In p opts -> alone o = true -> alone p = true -> shas (dest o) given = true -> shas (dest p) given = true -> dest o = dest p.
Lemma alone_more opts given o w : In o opts -> (forall p, In p opts -> dest p = dest o -> alone p = true -> alone o = true) -> excluded opts given o = false -> alone_once opts given -> alone_once opts (sset (dest o) w given).
Proof.
  intros I U X A p q P Q Ap Aq Hp Hq. rewrite shas_in, sset_in in Hp, Hq.
  assert (Y : forall p, In p opts -> alone p = true -> In (dest p) (map fst given) -> alone o = true -> dest p = dest o).
  { intros r R Ar Hr Ao. apply shas_in in Hr. destruct (String.eqb_spec (dest r) (dest o)) as [E|N]; [exact E|]. exfalso. unfold excluded in X. rewrite Ao in X. cbn [andb] in X.
    assert (Z : existsb (fun p => alone p && negb (String.eqb (dest p) (dest o)) && shas (dest p) given) opts = true); [|congruence].
    apply existsb_exists. exists r. split; [exact R|]. rewrite Ar, Hr. destruct (String.eqb_spec (dest r) (dest o)); [contradiction|reflexivity]. }
  destruct Hp as [Hp|Hp], Hq as [Hq|Hq]; [congruence| | |].
  - rewrite Hp. symmetry. apply Y; auto. eapply U; eauto.
  - rewrite Hq. apply Y; auto. eapply U; eauto.
  - apply A; auto; now apply shas_in.
Qed.
Lemma shas_more {V} d e (w : V) g : shas d g = true -> shas d (sset e w g) = true.
Proof. rewrite !shas_in, sset_in. auto. Qed.
Lemma consume_keeps opts : long_flags opts = true -> (forall o p, In o opts -> In p opts -> dest p = dest o -> alone p = true -> alone o = true) -> forall toks given extras g x,
  (forall b act n sep e, In (b, Wants (Some act) n sep e) toks -> In (n, act) (names opts) /\ written opts b n sep e) -> alone_once opts given -> consume opts given extras toks = Walked g x ->
  alone_once opts g /\ (forall d, shas d given = true -> shas d g = true) /\ (extras = true -> x = true) /\ (forall b, In (b, Dashes) toks -> x = true) /\
  (forall b o n sep e, In (b, Wants (Some (Opt o)) n sep e) toks -> shas (dest o) g = true).
Proof.
  intros L U toks. remember (List.length toks) as m eqn:Lm. assert (Le : (List.length toks <= m)%nat) by lia. clear Lm. revert toks Le.
  assert (Last : forall given extras g x, alone_once opts given -> consume opts given extras [] = Walked g x -> alone_once opts g /\ (forall d, shas d given = true -> shas d g = true) /\ (extras = true -> x = true) /\ (forall b, In (b, Dashes) (@nil (string * token)) -> x = true) /\
  (forall b o n sep e, In (b, Wants (Some (Opt o)) n sep e) (@nil (string * token)) -> shas (dest o) g = true)).
  { intros given extras g x A H. injection H as <- <-. split; [exact A|]. split; [auto|]. split; [auto|]. split; intros b; [intros []|intros o n sep e []]. }
  induction m as [|m IH]; intros toks Le given extras g x Wf A H.
  { destruct toks; [|cbn in Le; lia]. eapply Last; eauto. }
  destruct toks as [|[b t] rest]; [eapply Last; eauto|]. cbn [List.length] in Le. assert (W0 := H).
  apply consume_turn in H as (given' & extras' & toks' & T & H); [|exact L|intros act n sep e ->; apply Wf; now left].
  assert (Ow : forall b0 o n sep e, In (b0, Wants (Some (Opt o)) n sep e) ((b, t) :: rest) -> In o opts).
  { intros b' o n sep e I. destruct (Wf b' (Opt o) n sep e) as [J _].
    - exact I.
    - apply names_known in J as [_ [J|(o' & [= <-] & J & _)]]; [discriminate|exact J]. }
  inversion T as [b' t' r Sk|b' o n r sep K X|b' o n r sep s w K X V|b' o n r sep s w K X V]; subst.
  - destruct (IH toks' ltac:(lia) _ _ _ _ (fun b a n s e I => Wf b a n s e (or_intror I)) A H) as (R1 & R2 & R3 & R4 & R5). split; [exact R1|]. split; [exact R2|]. split; [auto|]. split; [auto|].
    intros b1 o n sep e [E|E]; [injection E as _ ->; exfalso; eapply Sk; reflexivity|eauto].
  - assert (I : In o opts) by (eapply Ow; now left).
    destruct (IH toks' ltac:(lia) _ _ _ _ (fun b a n s e I => Wf b a n s e (or_intror I)) (alone_more opts given o VTrue I (fun p => U o p I) X A) H) as (R1 & R2 & R3 & R4 & R5).
    split; [exact R1|]. split; [intros d Hd; apply R2; now apply shas_more|]. split; [auto|]. split; [intros b1 [E|E]; [discriminate|eauto]|].
    intros b1 o1 n1 sep1 e1 [E|E]; [|eauto]. injection E as _ <- _ _ _. apply R2. apply shas_in, sset_in. now left.
  - assert (I : In o opts) by (eapply Ow; now left).
    destruct (IH toks' ltac:(cbn in Le; lia) _ _ _ _ (fun b a n s e I => Wf b a n s e (or_intror (or_intror I))) (alone_more opts given o w I (fun p => U o p I) X A) H) as (R1 & R2 & R3 & R4 & R5).
    split; [exact R1|]. split; [intros d Hd; apply R2; now apply shas_more|]. split; [auto|]. split; [intros b1 [E|[E|E]]; [discriminate|discriminate|eauto]|].
    intros b1 o1 n1 sep1 e1 [E|[E|E]]; [|discriminate|eauto]. injection E as _ <- _ _ _. apply R2. apply shas_in, sset_in. now left.
  - assert (I : In o opts) by (eapply Ow; now left).
    destruct (IH toks' ltac:(lia) _ _ _ _ (fun b a n s e I => Wf b a n s e (or_intror I)) (alone_more opts given o w I (fun p => U o p I) X A) H) as (R1 & R2 & R3 & R4 & R5).
    split; [exact R1|]. split; [intros d Hd; apply R2; now apply shas_more|]. split; [auto|]. split; [intros b1 [E|E]; [discriminate|eauto]|].
    intros b1 o1 n1 sep1 e1 [E|E]; [|eauto]. injection E as _ <- _ _ _. apply R2. apply shas_in, sset_in. now left.
Qed.
Lemma classify_in opts args : forall toks, classify opts args = Some toks -> (forall b act n sep e, In (b, Wants (Some act) n sep e) toks -> In (n, act) (names opts) /\ written opts b n sep e) /\
  ((exists b, In (b, Dashes) toks) \/ forall a, In a args -> exists t, parse_optional opts a = Some t /\ In (a, t) toks).
Proof.
  induction args as [|a args IH]; intros toks C; [injection C as <-; split; [intros b act n sep e []|right; intros a []]|].
  apply classify_cons in C as [[-> ->]|(N & t & toks' & -> & P & C)].
  - split; [|left; exists "--"; now left]. intros b act n sep e [E|E]; [discriminate|]. apply in_map_iff in E as (c & E & _). discriminate.
  - destruct (IH _ C) as [W D]. split.
    + intros b act n sep e [E|E]; [injection E as <- ->; now apply optional_says|eauto].
    + destruct D as [[b D]|D]; [left; exists b; now right|]. right. intros a' [<-|I]; [exists t; split; [exact P|now left]|]. destruct (D a' I) as (t' & P' & I'). exists t'. split; [exact P'|now right].
Qed.
Lemma read_alone opts args ns a1 a2 o1 o2 n1 n2 : long_flags opts = true -> (forall o p, In o opts -> In p opts -> dest p = dest o -> alone p = true -> alone o = true) ->
  read_args opts args = Reads ns -> In a1 args -> In a2 args -> parse_optional opts a1 = Some (Wants (Some (Opt o1)) n1 false None) -> parse_optional opts a2 = Some (Wants (Some (Opt o2)) n2 false None) ->
  alone o1 = true -> alone o2 = true -> dest o1 = dest o2.
Proof.
  intros L U R I1 I2 P1 P2 A1 A2. unfold read_args in R. destruct (classify opts args) as [toks|] eqn:C; [|discriminate]. destruct (consume opts [] false toks) as [given extras|] eqn:K; [|discriminate].
  destruct (classify_in opts args toks C) as [W D]. destruct (consume_keeps opts L U toks [] false given extras W) as (R1 & _ & _ & R4 & R5); [intros o p _ _ _ _ X; discriminate|exact K|].
  destruct (forallb _ opts && negb extras) eqn:F; [|discriminate]. apply andb_prop in F as [_ F]. destruct D as [[b D]|D]; [rewrite (R4 b D) in F; discriminate|].
  destruct (D a1 I1) as (t1 & Q1 & J1). destruct (D a2 I2) as (t2 & Q2 & J2). rewrite P1 in Q1. rewrite P2 in Q2. injection Q1 as <-. injection Q2 as <-.
  assert (Own : forall a o n, In (a, Wants (Some (Opt o)) n false None) toks -> In o opts).
  { intros a o n I. destruct (W _ _ _ _ _ I) as [J _]. apply names_known in J as [_ [J|(o' & [= <-] & J & _)]]; [discriminate|exact J]. }
  apply R1; eauto.
Qed.

(** ** The words for a name *)
Fixpoint prefixes (s : string) : list string := "" :: match s with EmptyString => [] | String c r => map (String c) (prefixes r) end.
Lemma starts_prefixes a s : starts a s -> In a (prefixes s).
Proof.
  revert s. induction a as [|c a IH]; intros s [r ->]; [destruct r; now left|]. cbn [append prefixes]. right. apply in_map. apply IH. now exists r.
Qed.
Definition meansb (opts : list opt) (a n : string) : bool :=
  String.eqb a n || ((2 <=? String.length a)%nat && String.prefix a n && forallb (fun m => implb (String.prefix a (fst m)) (String.eqb (fst m) n)) (names opts)).
Lemma meansb_ok opts a n : meansb opts a n = true <-> means opts a n.
Proof.
  unfold meansb, means. rewrite orb_true_iff, !andb_true_iff, String.eqb_eq, Nat.leb_le, prefix_starts, forallb_forall. split; (intros [E|H]; [now left|right]).
  - destruct H as [[A B] C]. split; [exact A|]. split; [exact B|]. intros m K S. apply known_names in K as [act K]. specialize (C _ K). cbn [fst] in C. apply prefix_starts in S. rewrite S in C. now apply String.eqb_eq.
  - destruct H as (A & B & C). split; [auto|]. intros [m act] K. cbn [fst]. destruct (String.prefix a m) eqn:S; [|reflexivity]. apply prefix_starts in S. apply names_known in K as [K _]. cbn [implb]. apply String.eqb_eq. auto.
Qed.
Definition words (opts : list opt) (n : string) : list string := filter (fun a => meansb opts a n) (prefixes n).
Lemma words_ok opts a n : In a (words opts n) <-> means opts a n.
Proof.
  unfold words. rewrite filter_In, meansb_ok. split; [tauto|]. intros M. split; [|exact M]. apply starts_prefixes. destruct M as [->|(_ & S & _)]; [exists ""; clear; induction n as [|c n IH]; cbn; congruence|exact S].
Qed.
(** A word for the name of an option is taken for that option, in the tools. *)
Definition reads_words (opts : list opt) : bool :=
  forallb (fun o => forallb (fun n => forallb (fun a => match parse_optional opts a with Some (Wants (Some (Opt p)) _ false None) => String.eqb (dest p) (dest o) && Bool.eqb (alone p) (alone o) | _ => false end) (words opts n)) [short o; long o]) opts.
Lemma reads_word opts o n a : reads_words opts = true -> In o opts -> name_of o n -> means opts a n -> exists p m, parse_optional opts a = Some (Wants (Some (Opt p)) m false None) /\ dest p = dest o /\ alone p = alone o.
Proof.
  intros R I N M. unfold reads_words in R. rewrite forallb_forall in R. specialize (R o I). rewrite forallb_forall in R. specialize (R n ltac:(destruct N as [-> | ->]; [now left|right; now left])).
  rewrite forallb_forall in R. apply words_ok in M. specialize (R a M). destruct (parse_optional opts a) as [[| |[[|p]|] m [] [e|]]|]; try discriminate. apply andb_prop in R as [R1 R2].
  exists p, m. split; [reflexivity|]. split; [now apply String.eqb_eq|now apply eqb_prop].
Qed.
Theorem bem_line_excludes args s1 l1 n1 a1 s2 l2 n2 a2 : bem_action s1 l1 -> named s1 l1 n1 -> means bem_options a1 n1 -> In a1 args -> bem_action s2 l2 -> named s2 l2 n2 -> means bem_options a2 n2 -> In a2 args -> s1 <> s2 ->
  forall c l, bem_line args <> Sends c l.
Proof.
  intros A1 N1 M1 I1 A2 N2 M2 I2 D c l. unfold bem_line, run_tool. destruct (read_args bem_options args) as [|ns] eqn:P; [discriminate|]. intros _.
  assert (F : forall s l, bem_action s l -> exists o, In o bem_options /\ short o = s /\ long o = l /\ alone o = true).
  { intros s l' A. assert (X : In (s, l') (map fst bem_asks ++ map fst bem_asks_item)).
    { apply in_or_app. destruct A as [[x A]|[x A]]; [left|right]; apply in_map_iff; exists (s, l', x); auto. }
    assert (Y : forallb (fun p => existsb (fun o => String.eqb (short o) (fst p) && String.eqb (long o) (snd p) && alone o) bem_options) (map fst bem_asks ++ map fst bem_asks_item) = true) by reflexivity.
    rewrite forallb_forall in Y. specialize (Y _ X). apply existsb_exists in Y as (o & O & Y). rewrite !andb_true_iff, !String.eqb_eq in Y. cbn [fst snd] in Y. exists o. tauto. }
  destruct (F _ _ A1) as (o1 & O1 & S1 & L1 & Al1). destruct (F _ _ A2) as (o2 & O2 & S2 & L2 & Al2).
  assert (W : reads_words bem_options = true) by (vm_compute; reflexivity).
  destruct (reads_word bem_options o1 n1 a1 W O1) as (p1 & m1 & P1 & D1 & B1); [subst; exact N1|exact M1|].
  destruct (reads_word bem_options o2 n2 a2 W O2) as (p2 & m2 & P2 & D2 & B2); [subst; exact N2|exact M2|].
  apply D. rewrite <- S1, <- S2. f_equal. apply bem_dest; auto. rewrite <- D1, <- D2.
  apply (read_alone bem_options args ns a1 a2 p1 p2 m1 m2); [vm_compute; reflexivity| |exact P|exact I1|exact I2|exact P1|exact P2|rewrite B1; exact Al1|rewrite B2; exact Al2].
  intros o p O Q E. now rewrite (bem_dest o p O Q (eq_sym E)).
Qed.
