(** Properties of routing and of the server's answers: C20, C24, C25, C26, C48 and the acceptance part of C47. *)
From Coq Require Import List ZArith NArith Bool String Lia FinFun.
From Verif Require Import RouterModel RouterSpec RouterProofs RouterProofs2.
Import ListNotations.
Local Open Scope string_scope.
Local Open Scope Z_scope.

(** ** A concrete server for the examples: numbers as span keys, DTOs and answers. *)
Definition rx_span (j : json) : option N := match j with JNum z => Some (Z.to_N z) | _ => None end.
Definition rx_obj (route : string) (data : json) : json :=
  JObj [("route_key", JStr route); ("span_key", JNum 7); ("data", data); ("extra", JNull)].
Definition rx_loads (text : string) : outc json :=
  if String.eqb text "add" then Ret (rx_obj "add" (JObj [("x", JNum 20)]))
  else if String.eqb text "late" then Ret (rx_obj "late" (JObj [("x", JNum 20)]))
  else if String.eqb text "decode" then Ret (rx_obj "decode" (JObj [("x", JNum 20)]))
  else if String.eqb text "paused" then Ret (rx_obj "paused" (JObj [("x", JNum 20)]))
  else if String.eqb text "app" then Ret (rx_obj "app" (JObj [("x", JNum 20)]))
  else if String.eqb text "nobody" then Ret (rx_obj "nobody" (JObj []))
  else if String.eqb text "add-bad" then Ret (rx_obj "add" (JObj []))
  else if String.eqb text "list" then Ret (JArr [])
  else if String.eqb text "thin" then Ret (JObj [("route_key", JStr "add")])
  else Exc (XDecode "Expecting value").
Definition rx_dto (h : list (call N N N)) (d : list (string * json)) : outc N :=
  match d with [("x", JNum z)] => Ret (Z.to_N z) | _ => Exc (XValidation "x missing") end.
Definition rx_args (args : list (string * arg N N)) : N :=
  fold_left (fun a x => match snd x with ASpan k => a + k | ADto d => a + d end)%N args 0%N.
Definition rx_sig : list param := [mkParam "dto" Normal false; mkParam "verbose" KwOnly true].
Definition rx_hd (route : string) (f : list (call N N N) -> list (string * arg N N) -> outc N) : handler N N N :=
  mkHandler route rx_dto (Standard rx_sig f).
Definition rx_handlers : list (handler N N N) :=
  [rx_hd "add" (fun _ args => Ret (rx_args args)); rx_hd "decode" (fun _ _ => Exc (XDecode "handler's own JSON"));
   rx_hd "app" (fun _ _ => Exc (XApp "no stock")); mkHandler "paused" rx_dto (Buffered true); mkHandler "late" rx_dto (Buffered false);
   rx_hd "add" (fun _ _ => Ret 0%N)].
Definition rx_table : table N N N := register_all (fun _ => true) rx_handlers.
(** Two middlewares: the first adds 1 to every answer, the second doubles it and replaces the data of "add". *)
Definition rx_mws : list (middleware N N N) :=
  [mkMw (fun _ _ p => Ret p) (fun _ _ _ v => Ret (v + 1)%N);
   mkMw (fun _ _ p => match p with Some r => Ret (Some (mkReq (rroute r) (rspan r) (match rdata r with JObj [(x, JNum z)] => JObj [(x, JNum (z + 100))] | j => j end)))
                      | None => Ret None end)
        (fun _ _ _ v => Ret (v * 2)%N)].
Definition rx_bms : list (bmiddleware N N N) :=
  [mkBmw (fun _ _ _ => Ret (Some [("a", JNum 1); ("b", JNum 2)])); mkBmw (fun _ _ _ => Ret None);
   mkBmw (fun _ _ _ => Ret (Some [("b", JNum 3); ("c", JNum 4)]))].
Notation rx_serve := (serve_request (fun k : N => k) rx_bms rx_mws (fun _ _ => None) rx_span rx_loads rx_table).

(** ** C24: every request gets one well-formed answer *)

(** The only exception that can leave the server's handling of a request is one that is not an [Exception] (a
    cancellation) raised by user code. *)
Theorem C24_only_cancellation_escapes :
  forall (K D V : Type) (accepted_resp : K -> V) (bms : list (bmiddleware K D V)) (mws : list (middleware K D V)) stats span_of loads t text x h,
  serve_request accepted_resp bms mws stats span_of loads t text = (Exc x, h) ->
  is_base x /\ (loads text = Exc x \/
    exists hd h0 c, In hd (map snd t) /\ h = (h0 ++ [c])%list /\ raised mws bms stats hd h0 c = Some x).
Proof. exact (@serve_escapes). Qed.
Print Assumptions C24_only_cancellation_escapes.

(** Texts that are not JSON are answered 100, JSON objects that do not describe a request 300, requests for an unknown
    route 400, with a text that names it (other JSON values 999); no user code runs. *)
Theorem C24_bad_requests :
  forall (K D V : Type) (accepted_resp : K -> V) (bms : list (bmiddleware K D V)) (mws : list (middleware K D V)) stats span_of loads t text,
  let serve := serve_request accepted_resp bms mws stats span_of loads t text in
  (forall m, loads text = Exc (XDecode m) -> serve = (Ret (mkResp None 100 (RText m)), [])) /\
  (forall d, loads text = Ret (JObj d) -> (forall r, ~ describes span_of d r) -> exists m, serve = (Ret (mkResp None 300 (RText m)), [])) /\
  (forall j, loads text = Ret j -> (forall d, j <> JObj d) -> exists m, serve = (Ret (mkResp None 999 (RText m)), [])) /\
  (forall d r, loads text = Ret (JObj d) -> describes span_of d r -> missing (rroute r) t ->
     serve = (Ret (mkResp (Some (rspan r)) 400 (RText (unknown_route_text (rroute r)))), [])).
Proof.
  intros. repeat split; intros; [now apply serve_decode|eapply serve_not_request; eauto|eapply serve_not_object; eauto|eapply serve_unknown; eauto].
Qed.
Print Assumptions C24_bad_requests.

(** The full claim on statuses: 100 exactly for texts that are not JSON, 400 exactly for unknown routes. *)
Definition C24_status_tells_the_cause : Prop :=
  forall (K D V : Type) (accepted_resp : K -> V) (bms : list (bmiddleware K D V)) (mws : list (middleware K D V)) stats span_of loads t text resp h,
  serve_request accepted_resp bms mws stats span_of loads t text = (Ret resp, h) ->
  (pstatus resp = 100 <-> exists m, loads text = Exc (XDecode m)) /\
  (pstatus resp = 400 <-> exists d r, loads text = Ret (JObj d) /\ describes span_of d r /\ missing (rroute r) t).

(** False: the handler's own JSONDecodeError (or ValidationError, or routing exception) is reported with the status of a
    bad request. *)
Theorem C24_status_tells_the_cause_refuted : ~ C24_status_tells_the_cause.
Proof.
  intros H.
  assert (E : exists resp h, rx_serve "decode" = (Ret resp, h) /\ pstatus resp = 100) by (vm_compute; eauto).
  destruct E as [resp [h [E S]]]. apply H in E. destruct E as [[E _] _]. destruct (E S) as [m A]. discriminate.
Qed.
Print Assumptions C24_status_tells_the_cause_refuted.

(** What is true for a request with a known route: the answer carries the request's span key; calls happen in the order
    of [all_stages] and stop at the first exception; if the last call raised, the status and text are those of its
    exception; otherwise the status is 0 when all stages ran, else 999 (arguments that do not fit, data that is no
    object, receiving paused).  A value is answered exactly when every stage ran. *)
Theorem C24_status_by_first_failure_partial :
  forall (K D V : Type) (accepted_resp : K -> V) (bms : list (bmiddleware K D V)) (mws : list (middleware K D V)) stats span_of loads t text d r hd resp h,
  loads text = Ret (JObj d) -> describes span_of d r -> finds (rroute r) hd t ->
  serve_request accepted_resp bms mws stats span_of loads t text = (Ret resp, h) ->
  pspan resp = Some (rspan r) /\
  (forall j c, nth_error h j = Some c -> (S j < List.length h)%nat -> raised mws bms stats hd (firstn j h) c = None) /\
  prefix (map stage_of h) (all_stages (List.length mws) (List.length bms) hd) /\
  (forall v, pdata resp = RVal v -> pstatus resp = 0 /\ map stage_of h = all_stages (List.length mws) (List.length bms) hd) /\
  (match last (map Some h) None with
   | None => pstatus resp = 999
   | Some c => match raised mws bms stats hd (removelast h) c with
      | Some x => pstatus resp = status_of x /\
          pdata resp = RText (failure_text (rroute r) x)
      | None => pstatus resp = (match c with CStats _ => 0 | _ => 999 end)
      end
   end).
Proof. exact (@serve_known). Qed.
Print Assumptions C24_status_by_first_failure_partial.

Example C24_example :
  map (fun text => match fst (rx_serve text) with Ret p => (pspan p, pstatus p) | _ => (None, -1) end)
      ["add"; "app"; "decode"; "paused"; "nobody"; "add-bad"; "list"; "thin"; "?!"] =
    [(Some 7%N, 0); (Some 7%N, 600); (Some 7%N, 100); (Some 7%N, 999); (Some 7%N, 400); (Some 7%N, 300); (None, 999); (None, 300); (None, 100)].
Proof. vm_compute. reflexivity. Qed.
Example C24_example_meets : describes rx_span [("route_key", JStr "add"); ("span_key", JNum 7); ("data", JObj [("x", JNum 20)]); ("extra", JNull)]
    (mkReq "add" 7%N (JObj [("x", JNum 20)])) /\ finds "add" (rx_hd "add" (fun _ args => Ret (rx_args args))) rx_table.
Proof. split; [apply request_of_describes|apply sget_finds]; vm_compute; reflexivity. Qed.

(** ** C25: middleware sees every request in registration order *)

(** When a request is answered with a value: each before_routing ran once, in order, the first on the request, each
    following one on the previous answer; the DTO and the handler of the request's own route ran on the last answer; each
    after_routing ran once, in order, each on the previous answer, the first on the handler's; and the value is the last
    answer.  ([CDto], [CFun] and [CPush] carry the route; see C26_table_routes for [h_route hd].) *)
Theorem C25_values_handed_on :
  forall (K D V : Type) (accepted_resp : K -> V) (bms : list (bmiddleware K D V)) (mws : list (middleware K D V)) stats span_of loads t text d r hd resp v h,
  loads text = Ret (JObj d) -> describes span_of d r -> finds (rroute r) hd t ->
  serve_request accepted_resp bms mws stats span_of loads t text = (Ret resp, h) -> pdata resp = RVal v ->
  exists ps q data dto mid v0 vs,
    List.length ps = List.length mws /\ List.length vs = List.length mws /\
    h = (number (fun i p => CBefore i (rspan r) p) 0 (removelast (Some r :: ps)) ++
        CDto (h_route hd) data :: mid ++
        number (fun i v => CAfter i (rspan r) (Some q) v) 0 (removelast (v0 :: vs)) ++ [CStats (rroute r)])%list /\
    (forall j m a b, nth_error mws j = Some m -> nth_error (Some r :: ps) j = Some a -> nth_error ps j = Some b ->
       m_before m (firstn j h) (rspan r) a = Ret b) /\
    last ps (Some r) = Some q /\ rdata q = JObj data /\
    h_dto hd (firstn (List.length mws) h) data = Ret dto /\
    handled accepted_resp bms hd (rspan r) dto (firstn (List.length mws + 1) h) mid v0 /\
    (forall j m a b, nth_error mws j = Some m -> nth_error (v0 :: vs) j = Some a -> nth_error vs j = Some b ->
       m_after m (firstn (List.length mws + 1 + List.length mid + j) h) (rspan r) (Some q) a = Ret b) /\
    v = last vs v0.
Proof. exact (@serve_values). Qed.
Print Assumptions C25_values_handed_on.

(** And in every case, the stages reached are an initial part of the full list, in order, each at most once. *)
Theorem C25_stages_in_order :
  forall (K D V : Type) (accepted_resp : K -> V) (bms : list (bmiddleware K D V)) (mws : list (middleware K D V)) stats span_of loads t text d r hd o h,
  loads text = Ret (JObj d) -> describes span_of d r -> finds (rroute r) hd t ->
  serve_request accepted_resp bms mws stats span_of loads t text = (o, h) ->
  prefix (map stage_of h) (all_stages (List.length mws) (List.length bms) hd) /\ NoDup (map stage_of h).
Proof.
  intros K D V ar bms mws stats span_of loads t text d r hd o h El Hd Hf E.
  assert (P : prefix (map stage_of h) (all_stages (List.length mws) (List.length bms) hd)).
  { rewrite (serve_unfold _ _ _ _ _ _ _ _ _ _ El Hd) in E. apply sget_finds in Hf.
    destruct (known_route ar bms mws stats t r hd Hf) as [[o' h'] [[t0 [Eh R]] Ex]]. rewrite Ex in E. cbn [fst snd app] in *. subst h'.
    assert (h = t0) as -> by (destruct o' as [|[]]; now inversion E).
    destruct o'; [destruct R as [R _]; exists []; rewrite app_nil_r; auto|destruct R as [[? [? [_ [_ [_ P]]]]]|[_ [P _]]]; exact P]. }
  split; [exact P|]. destruct P as [rest P].
  assert (N : NoDup (all_stages (List.length mws) (List.length bms) hd)); [|rewrite P in N; now apply nodup_app_l in N].
  clear. unfold all_stages.
  assert (M : forall (f : nat -> stage) n, (forall i j, f i = f j -> i = j) -> NoDup (map f (seq 0 n))).
  { intros f n Hi. apply FinFun.Injective_map_NoDup; [exact Hi|apply seq_NoDup]. }
  assert (A : forall (l m : list stage), NoDup l -> NoDup m -> (forall x, In x l -> ~ In x m) -> NoDup (l ++ m)%list).
  { induction l as [|x l IH]; intros m Hl Hm Hd; [exact Hm|]. cbn [app]. inversion Hl; subst. constructor.
    - rewrite in_app_iff. intros [C|C]; [auto|]. apply (Hd x); [now left|exact C].
    - apply IH; auto. intros y Hy. apply Hd. now right. }
  apply A; [apply M; congruence| |].
  2:{ intros x Hx. apply in_map_iff in Hx. destruct Hx as [i [<- _]]. rewrite !in_app_iff. intros [C|[C|[C|C]]].
      - destruct C as [C|[]]. discriminate.
      - destruct (h_kind hd); [destruct C as [C|[]]; discriminate|]. apply in_app_iff in C. destruct C as [C|[C|[]]]; [|discriminate].
        apply in_map_iff in C. destruct C as [? [C _]]. discriminate.
      - apply in_map_iff in C. destruct C as [? [C _]]. discriminate.
      - destruct C as [C|[]]. discriminate. }
  cbn [app]. constructor.
  { rewrite !in_app_iff. intros [C|[C|C]].
    - destruct (h_kind hd); [destruct C as [C|[]]; discriminate|]. apply in_app_iff in C. destruct C as [C|[C|[]]]; [|discriminate].
      apply in_map_iff in C. destruct C as [? [C _]]. discriminate.
    - apply in_map_iff in C. destruct C as [? [C _]]. discriminate.
    - destruct C as [C|[]]. discriminate. }
  apply A.
  - destruct (h_kind hd); [repeat constructor; intros []|]. apply A; [apply M; congruence|repeat constructor; intros []|].
    intros x Hx. apply in_map_iff in Hx. destruct Hx as [i [<- _]]. intros [C|[]]. discriminate.
  - apply A; [apply M; congruence|repeat constructor; intros []|].
    intros x Hx. apply in_map_iff in Hx. destruct Hx as [i [<- _]]. intros [C|[]]. discriminate.
  - intros x Hx. rewrite in_app_iff. intros [C|[C|[]]].
    + apply in_map_iff in C. destruct C as [i [<- _]]. destruct (h_kind hd); [destruct Hx as [Hx|[]]; discriminate|].
      apply in_app_iff in Hx. destruct Hx as [Hx|[Hx|[]]]; [|discriminate]. apply in_map_iff in Hx. destruct Hx as [? [Hx _]]. discriminate.
    + subst x. destruct (h_kind hd); [destruct Hx as [Hx|[]]; discriminate|].
      apply in_app_iff in Hx. destruct Hx as [Hx|[Hx|[]]]; [|discriminate]. apply in_map_iff in Hx. destruct Hx as [? [Hx _]]. discriminate.
Qed.
Print Assumptions C25_stages_in_order.

(** (20 + 100) from the second middleware, + 1, * 2. *)
Example C25_example : let '(o, h) := rx_serve "add" in
  o = Ret (mkResp (Some 7%N) 0 (RVal 242%N)) /\
  h = [CBefore 0 7 (Some (mkReq "add" 7 (JObj [("x", JNum 20)]))); CBefore 1 7 (Some (mkReq "add" 7 (JObj [("x", JNum 20)])));
       CDto "add" [("x", JNum 120)]; CFun "add" [("dto", ADto 120)];
       CAfter 0 7 (Some (mkReq "add" 7 (JObj [("x", JNum 120)]))) 120; CAfter 1 7 (Some (mkReq "add" 7 (JObj [("x", JNum 120)]))) 121;
       CStats "add"]%N.
Proof. vm_compute. repeat split. Qed.

(** ** C26: route keys are unique *)

Theorem C26_registering :
  forall (K D V : Type) (track : string -> bool) (t : table K D V) (hd : handler K D V),
  (In (h_route hd) (map fst t) -> exists m, register_handler track t hd = (t, Exc (XOther m))) /\
  (~ In (h_route hd) (map fst t) ->
     fst (register_handler track t hd) = (t ++ [(h_route hd, hd)])%list /\
     (snd (register_handler track t hd) = Ret tt <-> track (h_route hd) = true)).
Proof. intros. split; intros H; [now apply register_present|now apply register_absent]. Qed.
Print Assumptions C26_registering.

Theorem C26_first_registered_is_found :
  forall (K D V : Type) (track : string -> bool) (hds : list (handler K D V)),
  NoDup (map fst (register_all track hds)) /\
  (forall k, In k (map fst (register_all track hds)) <-> In k (map h_route hds)) /\
  (forall k hd, finds k hd (register_all track hds) <-> finds k hd (by_route hds)).
Proof. exact (@register_all_table). Qed.
Print Assumptions C26_first_registered_is_found.
Theorem C26_table_routes :
  forall (K D V : Type) (track : string -> bool) (hds : list (handler K D V)) k hd,
  finds k hd (register_all track hds) -> h_route hd = k.
Proof. exact (@table_routes). Qed.
Print Assumptions C26_table_routes.
Example C26_example : map fst rx_table = ["add"; "decode"; "app"; "paused"; "late"] /\
  match sget "add" rx_table with Some hd => match h_kind hd with Standard _ f => f [] [("dto", ADto 5%N)] | _ => Ret 0%N end | None => Ret 0%N end = Ret 5%N.
Proof. vm_compute. repeat split. Qed.

(** ** C48: handler arguments are filtered by name *)

(** The full claim. *)
Definition C48_arguments : Prop :=
  forall (A : Type) (sig : list param) (kw : list (string * A)), proper sig -> NoDup (map fst kw) -> satisfied sig kw ->
  (~ open_ended sig -> filtered_call sig kw = Some (filter (fun x => declares sig (fst x)) kw)) /\
  (open_ended sig -> filtered_call sig kw = Some kw).
(** False: a function that takes only keyword arguments through ** gets none of them. *)
Theorem C48_arguments_refuted : ~ C48_arguments.
Proof.
  intros H. destruct (H N [mkParam "kwargs" VarKw false] [("dto", 1%N)]) as [_ A].
  - repeat constructor. intros [].
  - repeat constructor. intros [].
  - intros p [<-|[]] _ [E|[E|E]]; discriminate.
  - assert (B : filtered_call [mkParam "kwargs" VarKw false] [("dto", 1%N)] = Some [("dto", 1%N)]).
    { apply A. exists (mkParam "kwargs" VarKw false). split; [now left|reflexivity]. }
    vm_compute in B. discriminate.
Qed.
Print Assumptions C48_arguments_refuted.

(** For functions without positional-only, * and ** parameters: exactly the declared ones among the offered, or a
    TypeError exactly when a parameter without default is not offered. *)
Theorem C48_arguments_partial :
  forall (A : Type) (sig : list param) (kw : list (string * A)), plain sig ->
  (satisfied sig kw -> filtered_call sig kw = Some (filter (fun x => declares sig (fst x)) kw)) /\
  (~ satisfied sig kw -> filtered_call sig kw = None).
Proof. exact (@filtered_plain). Qed.
Print Assumptions C48_arguments_partial.
(** A call that goes through passes only arguments the function declares by name, whatever the signature. *)
Theorem C48_nothing_unexpected :
  forall (A : Type) (sig : list param) (kw args : list (string * A)), filtered_call sig kw = Some args -> args = named_in sig kw.
Proof. exact (@filtered_named). Qed.
Print Assumptions C48_nothing_unexpected.
Example C48_example : plain rx_sig /\ satisfied rx_sig [("span_key", 1%N); ("dto", 2%N)] /\ filtered_call rx_sig [("span_key", 1%N); ("dto", 2%N)] = Some [("dto", 2%N)].
Proof.
  split; [|split; [|reflexivity]].
  - intros p [<-|[<-|[]]]; cbn; auto.
  - intros p [<-|[<-|[]]]; cbn; [auto|discriminate].
Qed.

(** ** C20: paused receiving is reported as busy *)

Definition C20_paused_is_busy : Prop :=
  forall (K D V : Type) (accepted_resp : K -> V) (bms : list (bmiddleware K D V)) (mws : list (middleware K D V)) stats span_of loads t text d r hd resp h,
  loads text = Ret (JObj d) -> describes span_of d r -> finds (rroute r) hd t -> h_kind hd = Buffered true ->
  (forall h c, raised mws bms stats hd h c = None) ->
  serve_request accepted_resp bms mws stats span_of loads t text = (Ret resp, h) -> pstatus resp = 500.

(** What happens: nothing is put into the queue, no value is answered, and unless user code raises first the status is
    999, "unhandled". *)
Theorem C20_paused_is_refused_partial :
  forall (K D V : Type) (accepted_resp : K -> V) (bms : list (bmiddleware K D V)) (mws : list (middleware K D V)) stats span_of loads t text d r hd resp h,
  loads text = Ret (JObj d) -> describes span_of d r -> finds (rroute r) hd t -> h_kind hd = Buffered true ->
  serve_request accepted_resp bms mws stats span_of loads t text = (Ret resp, h) ->
  (forall c, In c h -> stage_of c <> Push /\ forall i, stage_of c <> PushMeta i) /\
  (forall v, pdata resp <> RVal v) /\
  ((forall h c, raised mws bms stats hd h c = None) -> pstatus resp = 999).
Proof. exact (@serve_paused). Qed.
Print Assumptions C20_paused_is_refused_partial.

Definition rx_dto_total (h : list (call N N N)) (d : list (string * json)) : outc N := Ret 0%N.
Theorem C20_paused_is_busy_refuted : ~ C20_paused_is_busy.
Proof.
  intros H. pose (hd := mkHandler "paused" rx_dto_total (Buffered (K:=N) (D:=N) (V:=N) true)).
  destruct (serve_request (fun k : N => k) [] [] (fun _ _ => None) rx_span rx_loads [("paused", hd)] "paused") as [o h] eqn:E.
  assert (A : exists resp, o = Ret resp /\ pstatus resp = 999) by (vm_compute in E; injection E as <- <-; eexists; split; reflexivity).
  destruct A as [resp [-> S]].
  assert (B : pstatus resp = 500); [|congruence].
  apply (H N N N (fun k => k) [] [] (fun _ _ => None) rx_span rx_loads [("paused", hd)] "paused"
    [("route_key", JStr "paused"); ("span_key", JNum 7); ("data", JObj [("x", JNum 20)]); ("extra", JNull)]
    (mkReq "paused" 7%N (JObj [("x", JNum 20)])) hd resp h); auto.
  - apply request_of_describes. reflexivity.
  - apply sget_finds. reflexivity.
  - intros h0 c. destruct c; cbn; try reflexivity; destruct i; reflexivity.
Qed.
Print Assumptions C20_paused_is_busy_refuted.
Example C20_example : let '(o, h) := rx_serve "paused" in
  match o with Ret p => pstatus p = 999 | _ => False end /\ map stage_of h = [Before 0; Before 1; MakeDto].
Proof. vm_compute. repeat split. Qed.

(** ** C47: metadata at acceptance *)

(** Whatever the outcome of the request, if it is put into a queue, it is put there once, under the request's span key,
    and its metadata are the merge, later middleware winning, of what each buffered middleware answered. *)
Theorem C47_metadata_merged :
  forall (K D V : Type) (accepted_resp : K -> V) (bms : list (bmiddleware K D V)) (mws : list (middleware K D V)) stats span_of loads t text d r hd o h rt k dto meta,
  loads text = Ret (JObj d) -> describes span_of d r -> finds (rroute r) hd t ->
  serve_request accepted_resp bms mws stats span_of loads t text = (o, h) -> In (CPush rt k dto meta) h ->
  rt = h_route hd /\ k = rspan r /\ h_kind hd = Buffered false /\
  exists ms h0 t1, List.length ms = List.length bms /\ merged ms meta /\
    h = (h0 ++ map (fun i => CBeforePush i k dto) (seq 0 (List.length bms)) ++ CPush rt k dto meta :: t1)%list /\
    ~ In (CPush rt k dto meta) t1 /\
    forall j m b, nth_error bms j = Some m -> nth_error ms j = Some b ->
      m_push m (h0 ++ firstn j (map (fun i => CBeforePush i k dto) (seq 0 (List.length bms))))%list k dto = Ret b.
Proof. exact (@serve_push). Qed.
Print Assumptions C47_metadata_merged.
Example C47_merge_example : let '(o, h) := rx_serve "late" in
  o = Ret (mkResp (Some 7%N) 0 (RVal 16%N)) /\
  In (CPush "late" 7 120 [("a", JNum 1); ("b", JNum 3); ("c", JNum 4)])%N h.
Proof. vm_compute. split; [reflexivity|]. do 6 right. left. reflexivity. Qed.
