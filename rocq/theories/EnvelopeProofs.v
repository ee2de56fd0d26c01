From Coq Require Import String Ascii ZArith NArith Bool Lia List Arith ZifyBool ZifyNat.
From Verif Require Import Base SpanKeyModel SpanKeySpec SpanKeyProofs RouterModel RouterSpec RouterProofs JsonModel JsonSpec JsonProofs
  WireModel WireProofs EnvelopeModel EnvelopeSpec.
Import ListNotations.
Local Open Scope Z_scope.
Set Default Goal Selector "!".

(** ** The calendar *)
Lemma month_day_table : forallb (fun i => forallb (fun leap =>
    let n := Z.of_nat i in let '(m, d) := month_day n leap in
    (365 <=? n) && negb leap ||
    (1 <=? m) && (m <=? 12) && (1 <=? d) && (d <=? 31) && (days_before_month_tab m + b2z ((2 <? m) && leap) + d - 1 =? n)) [true; false]) (seq 0 366) = true.
Proof. vm_compute. reflexivity. Qed.
Lemma month_day_ok n leap m d : 0 <= n < 365 + b2z leap -> month_day n leap = (m, d) ->
  1 <= m <= 12 /\ 1 <= d <= 31 /\ days_before_month_tab m + b2z ((2 <? m) && leap) + d - 1 = n.
Proof.
  intros H E. pose proof month_day_table as T. rewrite forallb_forall in T. specialize (T (Z.to_nat n)).
  rewrite in_seq in T. assert (Hn : (0 <= Z.to_nat n < 0 + 366)%nat) by (destruct leap; cbn [b2z] in H; lia).
  specialize (T Hn). rewrite Z2Nat.id in T by lia. rewrite forallb_forall in T. specialize (T leap ltac:(destruct leap; cbn; auto)).
  cbv zeta in T. rewrite E in T. apply orb_prop in T as [T|T].
  - exfalso. apply andb_prop in T as [T1 T2]. destruct leap; [discriminate|]. cbn [b2z] in H. lia.
  - repeat rewrite andb_true_iff in T. lia.
Qed.
Lemma year_start a b c d : 0 <= b <= 3 -> 0 <= c <= 24 -> 0 <= d <= 3 ->
  days_before_year (400 * a + 100 * b + 4 * c + d + 1) = 146097 * a + 36524 * b + 1461 * c + 365 * d.
Proof.
  intros Hb Hc Hd. unfold days_before_year. replace (400 * a + 100 * b + 4 * c + d + 1 - 1) with (400 * a + 100 * b + 4 * c + d) by lia.
  assert (E1 : (400 * a + 100 * b + 4 * c + d) / 4 = 100 * a + 25 * b + c) by (symmetry; apply Z.div_unique with d; lia).
  assert (E2 : (400 * a + 100 * b + 4 * c + d) / 100 = 4 * a + b) by (symmetry; apply Z.div_unique with (4 * c + d); lia).
  assert (E3 : (400 * a + 100 * b + 4 * c + d) / 400 = a) by (symmetry; apply Z.div_unique with (100 * b + 4 * c + d); lia).
  rewrite E1, E2, E3. lia.
Qed.
Lemma leap_year a b c d : 0 <= b <= 3 -> 0 <= c <= 24 -> 0 <= d <= 3 ->
  is_leap (400 * a + 100 * b + 4 * c + d + 1) = (d =? 3) && (negb (c =? 24) || (b =? 3)).
Proof.
  intros Hb Hc Hd. unfold is_leap.
  assert (E1 : (400 * a + 100 * b + 4 * c + d + 1) mod 4 = (d + 1) mod 4).
  { replace (400 * a + 100 * b + 4 * c + d + 1) with (d + 1 + (100 * a + 25 * b + c) * 4) by lia. apply Z.mod_add. lia. }
  assert (E2 : (400 * a + 100 * b + 4 * c + d + 1) mod 100 = (4 * c + d + 1) mod 100).
  { replace (400 * a + 100 * b + 4 * c + d + 1) with (4 * c + d + 1 + (4 * a + b) * 100) by lia. apply Z.mod_add. lia. }
  assert (E3 : (400 * a + 100 * b + 4 * c + d + 1) mod 400 = (100 * b + 4 * c + d + 1) mod 400).
  { replace (400 * a + 100 * b + 4 * c + d + 1) with (100 * b + 4 * c + d + 1 + a * 400) by lia. apply Z.mod_add. lia. }
  rewrite E1, E2, E3.
  assert (F1 : ((d + 1) mod 4 =? 0) = (d =? 3)) by (pose proof (Z.div_mod (d + 1) 4); pose proof (Z.mod_pos_bound (d + 1) 4); lia).
  rewrite F1. destruct (Z.eqb_spec d 3) as [->|]; [|reflexivity]. cbn [andb].
  assert (F2 : ((4 * c + 3 + 1) mod 100 =? 0) = (c =? 24)).
  { pose proof (Z.div_mod (4 * c + 3 + 1) 100); pose proof (Z.mod_pos_bound (4 * c + 3 + 1) 100); lia. }
  rewrite F2. destruct (Z.eqb_spec c 24) as [->|]; [|reflexivity]. cbn [negb orb].
  pose proof (Z.div_mod (100 * b + 4 * 24 + 3 + 1) 400); pose proof (Z.mod_pos_bound (100 * b + 4 * 24 + 3 + 1) 400); lia.
Qed.
Definition day_number (y m d : Z) : Z := days_before_year y + (days_before_month_tab m + b2z ((2 <? m) && is_leap y)) + d.
Lemma ord2ymd_ok n y m d : ord2ymd n = (y, m, d) -> 1 <= m <= 12 /\ 1 <= d <= 31 /\ day_number y m d = n.
Proof.
  unfold ord2ymd. set (n0 := n - 1). set (a := n0 / 146097). set (r1 := n0 mod 146097).
  set (b := r1 / 36524). set (r2 := r1 mod 36524). set (c := r2 / 1461). set (r3 := r2 mod 1461). set (e := r3 / 365). set (r4 := r3 mod 365).
  assert (D1 : n0 = 146097 * a + r1) by (apply Z.div_mod; lia). assert (B1 : 0 <= r1 < 146097) by (apply Z.mod_pos_bound; lia).
  assert (D2 : r1 = 36524 * b + r2) by (apply Z.div_mod; lia). assert (B2 : 0 <= r2 < 36524) by (apply Z.mod_pos_bound; lia).
  assert (D3 : r2 = 1461 * c + r3) by (apply Z.div_mod; lia). assert (B3 : 0 <= r3 < 1461) by (apply Z.mod_pos_bound; lia).
  assert (D4 : r3 = 365 * e + r4) by (apply Z.div_mod; lia). assert (B4 : 0 <= r4 < 365) by (apply Z.mod_pos_bound; lia).
  clearbody a r1 b r2 c r3 e r4. assert (N : n = n0 + 1) by (unfold n0; lia). clearbody n0. subst n.
  assert (Hb : 0 <= b <= 4) by lia. assert (Hc : 0 <= c <= 24) by lia. assert (He : 0 <= e <= 4) by lia.
  cbv zeta. destruct (Z.eqb_spec e 4) as [->|He4]; [|destruct (Z.eqb_spec b 4) as [->|Hb4]]; cbn [orb].
  - assert (b <= 3) by lia. intros E. injection E as <- <- <-. split; [lia|split; [lia|]].
    replace (a * 400 + 1 + b * 100 + c * 4 + 4 - 1) with (400 * a + 100 * b + 4 * c + 3 + 1) by lia. unfold day_number.
    rewrite year_start by lia. rewrite leap_year by lia.
    assert (Q : (3 =? 3) && (negb (c =? 24) || (b =? 3)) = true) by lia. rewrite Q. change (days_before_month_tab 12) with 334. cbn [Z.ltb Z.compare Pos.compare Pos.compare_cont andb b2z]. lia.
  - assert (r2 = 0 /\ c = 0 /\ e = 0) as (-> & -> & ->) by lia. intros E. injection E as <- <- <-. split; [lia|split; [lia|]].
    replace (a * 400 + 1 + 400 + 0 + 0 - 1) with (400 * a + 100 * 3 + 4 * 24 + 3 + 1) by lia. unfold day_number.
    rewrite (year_start a 3 24 3) by lia. rewrite (leap_year a 3 24 3) by lia. change (days_before_month_tab 12) with 334. cbn [Z.eqb Pos.eqb Z.ltb Z.compare Pos.compare Pos.compare_cont negb orb andb b2z]. lia.
  - destruct (month_day r4 _) as [m' d'] eqn:E. intros H. injection H as <- <- <-.
    apply month_day_ok in E; [|destruct (_ && _); cbn [b2z]; lia]. destruct E as (Hm & Hd & E). split; [exact Hm|split; [exact Hd|]].
    replace (a * 400 + 1 + b * 100 + c * 4 + e) with (400 * a + 100 * b + 4 * c + e + 1) by lia. unfold day_number.
    rewrite year_start by lia. rewrite leap_year by lia. lia.
Qed.
Lemma year_mono y z : y <= z -> days_before_year y <= days_before_year z.
Proof.
  intros H. unfold days_before_year.
  enough ((z - 1) / 100 - (y - 1) / 100 <= z - y /\ (y - 1) / 4 <= (z - 1) / 4 /\ (y - 1) / 400 <= (z - 1) / 400) by lia.
  split; [|split; apply Z.div_le_mono; lia].
  pose proof (Z.div_mod (z - 1) 100). pose proof (Z.mod_pos_bound (z - 1) 100). pose proof (Z.div_mod (y - 1) 100). pose proof (Z.mod_pos_bound (y - 1) 100). lia.
Qed.
Lemma year_range n y m d : ord2ymd n = (y, m, d) -> 719163 <= n < 3652060 -> 0 <= y < 10000.
Proof.
  intros E H. apply ord2ymd_ok in E as (Hm & Hd & E). unfold day_number in E.
  assert (0 <= days_before_month_tab m + b2z ((2 <? m) && is_leap y) <= 335).
  { assert (0 <= days_before_month_tab m <= 334).
    { assert (m = 1 \/ m = 2 \/ m = 3 \/ m = 4 \/ m = 5 \/ m = 6 \/ m = 7 \/ m = 8 \/ m = 9 \/ m = 10 \/ m = 11 \/ m = 12) as Q by lia.
      repeat (destruct Q as [->|Q]; [split; discriminate|]). subst. split; discriminate. }
    destruct (_ && _); cbn [b2z]; lia. }
  split.
  - destruct (Z.le_gt_cases 0 y); [assumption|]. pose proof (year_mono y 1 ltac:(lia)). change (days_before_year 1) with 0 in *. lia.
  - destruct (Z.le_gt_cases 10000 y); [|assumption]. pose proof (year_mono 10000 y ltac:(lia)). change (days_before_year 10000) with 3652059 in *. lia.
Qed.

(** ** Reading the text of a moment *)
Lemma digits_padded w : forall n acc r, 0 <= n < 10 ^ Z.of_nat w -> JsonModel.digits acc (padded w n ++ r) = JsonModel.digits (acc * 10 ^ Z.of_nat w + n) r.
Proof.
  induction w as [|w IH]; intros n acc r H; cbn [padded]; [cbn in *; f_equal; lia|].
  rewrite Nat2Z.inj_succ, Z.pow_succ_r in * by lia. rewrite sapp_assoc, IH.
  - cbn [append JsonModel.digits]. rewrite digit_of_digit by (pose proof (Z.mod_pos_bound n 10); lia). f_equal. pose proof (Z.div_mod n 10). lia.
  - split; [apply Z.div_pos; lia|apply Z.div_lt_upper_bound; lia].
Qed.
Lemma padded_head w n : 0 <= n < 10 ^ Z.of_nat (S w) -> exists d s, padded (S w) n = String (digit d) s /\ 0 <= d <= 9.
Proof.
  revert n. induction w as [|w IH]; intros n H.
  - exists (n mod 10), EmptyString. split; [reflexivity|pose proof (Z.mod_pos_bound n 10); lia].
  - destruct (IH (n / 10)) as (d & s & E & B).
    + rewrite Nat2Z.inj_succ, Z.pow_succ_r in H by lia. split; [apply Z.div_pos; lia|apply Z.div_lt_upper_bound; lia].
    + change (padded (S (S w)) n) with (padded (S w) (n / 10) ++ String (digit (n mod 10)) EmptyString)%string. rewrite E. exists d, (s ++ String (digit (n mod 10)) "")%string. auto.
Qed.
Definition no_digit (r : string) : Prop := match r with String c _ => digit_of c = None | EmptyString => True end.
Lemma scan_padded w n r : 0 <= n < 10 ^ Z.of_nat (S w) -> no_digit r -> scan_int (padded (S w) n ++ r) = Some (n, r).
Proof.
  intros H Hr. destruct (padded_head w n H) as (d & s & E & B). pose proof (digits_padded (S w) n 0 r H) as D.
  rewrite E in *. rewrite sapp_cons in *. unfold scan_int.
  assert (Q : EnvelopeModel.is_space (digit d) = false /\ Ascii.eqb (digit d) "-" = false /\ Ascii.eqb (digit d) "+" = false).
  { apply digit_cases in B. repeat (destruct B as [->|B]; [repeat split; reflexivity|]). subst. repeat split; reflexivity. }
  destruct Q as (Q1 & Q2 & Q3). cbn [skip_space]. rewrite Q1, Q2, Q3. unfold scan_digits. rewrite digit_of_digit by exact B. rewrite D.
  destruct r as [|c r]; cbn [JsonModel.digits]; [f_equal; f_equal; lia|]. cbn [no_digit] in Hr. rewrite Hr. f_equal; f_equal; lia.
Qed.
Lemma scan_field w n c seps r : 0 <= n < 10 ^ Z.of_nat (S w) -> digit_of c = None ->
  scan_fields (c :: seps) (padded (S w) n ++ String c r) = n :: scan_fields seps r.
Proof. intros H N. cbn [scan_fields]. rewrite scan_padded by auto. now rewrite Ascii.eqb_refl. Qed.
Definition sep_fields : list ascii := ["-"; "-"; "T"; ":"; ":"; "."]%char.
Lemma scan_iso t y m d : 0 <= t < end_of_time -> ord2ymd (t / 1000000 / 86400 + epoch_day) = (y, m, d) ->
  let secs := t / 1000000 in let sod := secs mod 86400 in
  scan_fields sep_fields (isoformat t) =
    ([y; m; d; sod / 3600; sod mod 3600 / 60; sod mod 60] ++ (if t mod 1000000 =? 0 then [] else [t mod 1000000]))%list.
Proof.
  intros Ht E secs sod. unfold isoformat. cbv zeta. rewrite E.
  assert (Hs : 0 <= secs < 253402300800). { unfold secs. unfold end_of_time in Ht. split; [apply Z.div_pos; lia|apply Z.div_lt_upper_bound; lia]. }
  assert (Hd : 0 <= secs / 86400 < 2932897) by (split; [apply Z.div_pos; lia|apply Z.div_lt_upper_bound; lia]).
  pose proof (year_range _ _ _ _ E ltac:(unfold epoch_day; fold secs; lia)) as Hy. apply ord2ymd_ok in E as (Hm & Hdd & _).
  assert (Ho : 0 <= sod < 86400) by (apply Z.mod_pos_bound; lia).
  assert (H1 : 0 <= sod / 3600 < 24) by (split; [apply Z.div_pos; lia|apply Z.div_lt_upper_bound; lia]).
  assert (H2 : 0 <= sod mod 3600 < 3600) by (apply Z.mod_pos_bound; lia).
  assert (H3 : 0 <= sod mod 3600 / 60 < 60) by (split; [apply Z.div_pos; lia|apply Z.div_lt_upper_bound; lia]).
  assert (H4 : 0 <= sod mod 60 < 60) by (apply Z.mod_pos_bound; lia).
  assert (H5 : 0 <= t mod 1000000 < 1000000) by (apply Z.mod_pos_bound; lia).
  fold secs. fold sod. change (10 ^ Z.of_nat 2) with 100 in *. unfold sep_fields, chr. cbn [append].
  rewrite scan_field by (first [reflexivity|change (10 ^ Z.of_nat 4) with 10000; lia]).
  do 4 rewrite scan_field by (first [reflexivity|change (10 ^ Z.of_nat 2) with 100; lia]).
  cbn [app]. do 5 f_equal. destruct (t mod 1000000 =? 0).
  - cbn [append scan_fields]. rewrite scan_padded by (first [reflexivity|change (10 ^ Z.of_nat 2) with 100; lia]). reflexivity.
  - cbn [append]. rewrite scan_field by (first [reflexivity|change (10 ^ Z.of_nat 2) with 100; lia]).
    cbn [scan_fields]. rewrite scan_padded by (first [reflexivity|change (10 ^ Z.of_nat 6) with 1000000; lia]). reflexivity.
Qed.
Lemma timegm_ok t y m d : ord2ymd (t / 86400 + epoch_day) = (y, m, d) ->
  let sod := t mod 86400 in timegm y m d (sod / 3600) (sod mod 3600 / 60) (sod mod 60) = t.
Proof.
  intros E sod. apply ord2ymd_ok in E as (_ & _ & E). unfold day_number in E. unfold timegm.
  pose proof (Z.div_mod t 86400). pose proof (Z.div_mod sod 3600). pose proof (Z.div_mod (sod mod 3600) 60).
  assert (sod mod 3600 mod 60 = sod mod 60). { change 3600 with (60 * 60). rewrite Z.rem_mul_r by lia. rewrite Z.mul_comm, Z.mod_add by lia. apply Z.mod_mod. lia. }
  unfold sod in *. lia.
Qed.
Theorem parse_isoformat t : 0 <= t < end_of_time -> parse_iso8601 (isoformat t) = (1000 * t) mod 2 ^ 64.
Proof.
  intros H. destruct (ord2ymd (t / 1000000 / 86400 + epoch_day)) as [[y m] d] eqn:E.
  unfold parse_iso8601. fold sep_fields. rewrite (scan_iso t y m d H E). pose proof (timegm_ok _ _ _ _ E) as T. cbv zeta in *.
  set (f := (_ ++ _)%list).
  assert (G : nth 6 f 0 = t mod 1000000) by (unfold f; cbn [app nth]; destruct (Z.eqb_spec (t mod 1000000) 0) as [->|]; reflexivity).
  rewrite G. unfold f. cbn [app nth]. rewrite T. unfold u64.
  assert (B : 0 <= t / 1000000 < 253402300800). { unfold end_of_time in H. split; [apply Z.div_pos; lia|apply Z.div_lt_upper_bound; lia]. }
  pose proof (Z.mod_pos_bound t 1000000). pose proof (Z.div_mod t 1000000).
  change 18446744073709551616 with (2 ^ 64). rewrite (Z.mod_small (t / 1000000)) by (change (2 ^ 64) with 18446744073709551616; lia).
  rewrite (Z.mod_small (t mod 1000000)) by (change (2 ^ 64) with 18446744073709551616; lia). f_equal. lia.
Qed.
Lemma isoformat_inj s t : 0 <= s < end_of_time -> 0 <= t < end_of_time -> isoformat s = isoformat t -> s = t.
Proof.
  intros Hs Ht E. destruct (ord2ymd (s / 1000000 / 86400 + epoch_day)) as [[y m] d] eqn:E1. destruct (ord2ymd (t / 1000000 / 86400 + epoch_day)) as [[y' m'] d'] eqn:E2.
  pose proof (scan_iso s y m d Hs E1) as S1. pose proof (scan_iso t y' m' d' Ht E2) as S2. rewrite E, S2 in S1.
  pose proof (timegm_ok _ _ _ _ E1) as T1. pose proof (timegm_ok _ _ _ _ E2) as T2. cbv zeta in *.
  assert (N : forall i, nth i (_ : list Z) 0 = nth i _ 0) by (intros i; exact (f_equal (fun l => nth i l 0) S1)).
  pose proof (N 0%nat) as N0. pose proof (N 1%nat) as N1. pose proof (N 2%nat) as N2. pose proof (N 3%nat) as N3. pose proof (N 4%nat) as N4. pose proof (N 5%nat) as N5. pose proof (N 6%nat) as N6.
  cbn [app nth] in N0, N1, N2, N3, N4, N5. rewrite N0, N1, N2, N3, N4, N5 in T2. rewrite T1 in T2.
  assert (t mod 1000000 = s mod 1000000).
  { cbn [app nth] in N6. destruct (Z.eqb_spec (t mod 1000000) 0) as [Z1|Z1], (Z.eqb_spec (s mod 1000000) 0) as [Z2|Z2]; cbn [nth] in N6; congruence. }
  pose proof (Z.div_mod s 1000000). pose proof (Z.div_mod t 1000000). lia.
Qed.

(** ** Numerals *)
Lemma digit_in d : 0 <= d <= 9 -> In (digit d, d) decimals.
Proof.
  intros H. unfold decimals. cbn [combine list_ascii_of_string In]. apply digit_cases in H.
  do 9 (destruct H as [->|H]; [repeat (try (left; reflexivity); right)|]). subst d. repeat (try (left; reflexivity); right).
Qed.
Lemma numeral_dec_fuel fuel : forall n, (fuel <> 0)%nat -> 0 <= n < 10 ^ Z.of_nat fuel -> numeral (dec_fuel fuel n) n.
Proof.
  induction fuel as [|k IH]; intros n Hf Hn; [congruence|]. cbn [dec_fuel].
  destruct (Z.ltb_spec n 10) as [Hlt|Hge].
  - apply num_one, digit_in. lia.
  - assert (Hk : (k <> 0)%nat). { intros ->. change (10 ^ Z.of_nat 1) with 10 in Hn. lia. }
    rewrite (Z.div_mod n 10) at 3 by lia. apply num_snoc.
    + apply IH; [exact Hk|]. rewrite Nat2Z.inj_succ, Z.pow_succ_r in Hn by lia. split; [apply Z.div_pos; lia|apply Z.div_lt_upper_bound; lia].
    + apply digit_in. pose proof (Z.mod_pos_bound n 10). lia.
Qed.
Lemma numeral_dec n : 0 <= n -> numeral (dec n) n.
Proof. intros H. apply numeral_dec_fuel; [discriminate|]. split; [exact H|now apply dec_bound]. Qed.
(** A text is a numeral of one number only. *)
Lemma decimals_fun c d e : In (c, d) decimals -> In (c, e) decimals -> d = e.
Proof.
  cbn. intros H G. repeat (destruct H as [H|H]; [injection H as <- <-; repeat (destruct G as [G|G]; [try discriminate G; injection G as <-; reflexivity|]); destruct G|]). destruct H.
Qed.
Lemma snoc_inj s1 s2 c1 c2 : (s1 ++ String c1 "" = s2 ++ String c2 "")%string -> s1 = s2 /\ c1 = c2.
Proof.
  revert s2. induction s1 as [|x s1 IH]; intros [|y s2] H; cbn in H.
  - injection H as ->. auto.
  - injection H as _ H. destruct s2; discriminate H.
  - injection H as _ H. destruct s1; discriminate H.
  - injection H as -> H. apply IH in H as [-> ->]. auto.
Qed.
Lemma numeral_fun s v : numeral s v -> forall w, numeral s w -> v = w.
Proof.
  induction 1 as [c d H|s v c d H IH Hc]; intros w G.
  - inversion G as [c' d' H' E|s' v' c' d' H' Hc' E]; subst.
    + eapply decimals_fun; eassumption.
    + destruct s'; [inversion H'; destruct s; discriminate|destruct s'; discriminate E].
  - inversion G as [c' d' H' E|s' v' c' d' H' Hc' E]; subst.
    + destruct s; [inversion H; destruct s; discriminate|destruct s; discriminate E].
    + apply snoc_inj in E as [-> ->]. f_equal; [f_equal; now apply IH|eapply decimals_fun; eassumption].
Qed.

(** ** The record *)
Lemma severity_ok l : severity l (fst (severity_for_levelno l)) (snd (severity_for_levelno l)).
Proof.
  unfold severity_for_levelno. cbn [sev_get]. repeat match goal with |- context [if ?x =? ?y then _ else _] => destruct (Z.eqb_spec x y) as [->|] end; try constructor.
  cbn. intuition congruence.
Qed.
Definition ids (span : option span_key) : list (string * json) :=
  match span with
  | Some k => [("traceId", JStr (of_text (format_0x 32 (trace_id k)))); ("spanId", JStr (of_text (span_id_hex (span_id k))))]
  | None => []
  end%string.
Definition converted (a : application) (span : option span_key) (r : record) : list (string * json) :=
  ([("timeUnixNano", JStr (dec (parse_iso8601 (isoformat (created r))))); ("severityNumber", JNum (fst (severity_for_levelno (levelno r))));
    ("severityText", JStr (snd (severity_for_levelno (levelno r)))); ("body", str (message r));
    ("attributes", JArr [JObj [("key", JStr "application_instance"); ("value", str (app_instance a))]; JObj [("key", JStr "application_name"); ("value", str (app_name a))];
                         JObj [("key", JStr "filename"); ("value", str (filename r))]; JObj [("key", JStr "funcName"); ("value", str (funcname r))];
                         JObj [("key", JStr "lineno"); ("value", int (lineno r))]; JObj [("key", JStr "module"); ("value", str (module_ r))]])]%string ++ ids span)%list.
Lemma convert_format a span r : convert_one_record (format a span r) = Some (JObj (converted a span r)).
Proof. destruct span; reflexivity. Qed.
Lemma format_proper a span r : proper (format a span r).
Proof.
  constructor; [repeat constructor; cbn; intuition discriminate|].
  repeat (constructor; [cbn [snd]; try constructor|]); try solve [constructor].
  all: try (destruct span; constructor). all: repeat constructor; cbn; intuition discriminate.
Qed.
Lemma hex_denotes w v : 0 <= v < 16 ^ Z.of_nat w -> denotes (format_0x w v) v /\ List.length (format_0x w v) = w.
Proof.
  intros H. unfold format_0x. destruct (Z.ltb_spec v 0); [lia|]. split; [|apply hex_fixed_length].
  pose proof (plain_denotes (hex_fixed w v) (hex_fixed_plain w v)) as D. rewrite hex_fixed_value in D by lia. rewrite Z.mod_small in D by exact H. exact D.
Qed.
Ltac found := apply sget_finds; reflexivity.
Theorem content_ok a span r : (forall k, span = Some k -> valid_key k) -> content a span r (converted a span r).
Proof.
  intros V. split; [|split; [|split]].
  - eexists _, _. split; [apply severity_ok|]. split; apply sget_finds; reflexivity.
  - apply sget_finds. reflexivity.
  - eexists. split; [apply sget_finds; reflexivity|]. split; [reflexivity|]. unfold attribute. cbn [In]. repeat split; auto 12.
  - destruct span as [k|]; cbn [option_map hex_id].
    + destruct (V k eq_refl) as [A B]. destruct (hex_denotes 32 (trace_id k)) as [D1 L1]; [exact A|]. destruct (hex_denotes 16 (span_id k)) as [D2 L2]; [exact B|].
      split; eexists; (split; [apply sget_finds; reflexivity|]); unfold of_text; rewrite list_ascii_of_string_of_list_ascii; auto.
    + split; unfold missing, converted, ids; cbn [app map fst In]; intros H; repeat (destruct H as [H|H]; [discriminate H|]); exact H.
Qed.
Definition line (e : entry) : string := print (format (e_app e) (e_span e) (e_record e)).
Definition conv (e : entry) : json := JObj (converted (e_app e) (e_span e) (e_record e)).
Lemma parse_line e : parse (line e) = Some (format (e_app e) (e_span e) (e_record e)).
Proof.
  pose proof (round_trip _ EmptyString EmptyString (format_proper (e_app e) (e_span e) (e_record e)) blank_nil blank_nil) as Q.
  rewrite sapp_nil in Q. exact Q.
Qed.
Lemma resource_ok a span r : extract_resource_info (format a span r) = Some (app_name a, app_instance a).
Proof. reflexivity. Qed.
Lemma all_convert es : all (map (fun l => match parse l with Some j => convert_one_record j | None => None end) (map line es)) = Some (map conv es).
Proof.
  induction es as [|e es IH]; [reflexivity|]. cbn [map all]. rewrite parse_line, convert_format, IH. reflexivity.
Qed.
Lemma build_cons l ls : build (l :: ls) =
  match parse l with
  | None => None
  | Some j => match extract_resource_info j, all (match parse l with Some j => convert_one_record j | None => None end :: map (fun l => match parse l with Some j => convert_one_record j | None => None end) ls) with
              | Some r, Some records => Some (payload r records) | _, _ => None end
  end.
Proof. reflexivity. Qed.
Lemma converted_time a span r : sget "timeUnixNano" (converted a span r) = Some (JStr (dec (parse_iso8601 (isoformat (created r))))).
Proof. reflexivity. Qed.
Theorem build_ok e es : build (map line (e :: es)) = Some (payload (app_name (e_app e), app_instance (e_app e)) (map conv (e :: es))).
Proof.
  pose proof (all_convert (e :: es)) as A. pose proof (parse_line e) as P. cbn [map] in *. generalize dependent (line e). intros l A P.
  rewrite build_cons, A, P, resource_ok. reflexivity.
Qed.
Definition one_record (l : string) : option json := match parse l with Some j => convert_one_record j | None => None end.
Lemma converts_record l : converts l = true -> exists j, one_record l = Some j.
Proof. unfold converts, one_record. destruct (parse l) as [j|]; [|discriminate]. destruct (extract_resource_info j), (convert_one_record j); try discriminate. eauto. Qed.
Lemma all_records ls : Forall (fun l => converts l = true) ls -> exists rs, all (map one_record ls) = Some rs.
Proof.
  induction 1 as [|l ls C _ [rs IH]]; cbn [map all]; [eauto|]. apply converts_record in C as [j ->]. rewrite IH. eauto.
Qed.
Lemma converts_batch l ls : Forall (fun l => converts l = true) (l :: ls) -> build (l :: ls) <> None.
Proof.
  intros F. destruct (all_records _ F) as [rs E]. inversion F as [|x y C _]; subst. unfold build. fold one_record. rewrite E.
  unfold converts in C. destruct (parse l) as [j|]; [|discriminate]. destruct (extract_resource_info j); [|discriminate]. discriminate.
Qed.
Lemma batch_converts l ls : build (l :: ls) <> None -> converts l = true.
Proof.
  unfold build, converts. cbn [map all]. destruct (parse l) as [j|]; [|congruence]. destruct (extract_resource_info j); [|congruence].
  destruct (convert_one_record j); [reflexivity|congruence].
Qed.
Lemma converts_alone l : converts l = true <-> build [l] <> None.
Proof. split; [intros C; apply converts_batch; auto|apply batch_converts]. Qed.
Lemma converts_line e : converts (line e) = true.
Proof. unfold converts. rewrite parse_line, resource_ok, convert_format. reflexivity. Qed.
Lemma severity_inj l1 l2 n1 n2 t1 t2 : severity l1 n1 t1 -> severity l2 n2 t2 -> n1 = n2 -> In l1 [10; 20; 30; 40; 50] -> l1 = l2.
Proof. intros H1 H2 <- I. inversion H1; inversion H2; subst; congruence || contradiction. Qed.
