(** Statements C69 to C72: the benchmark support in testbed/. *)
From Coq Require Import String Ascii.
From Coq Require Import ZArith List Bool Lia.
From Verif Require Import Testbed SpecTestbed TestbedProofs.
Import ListNotations.
Open Scope Z_scope.

(** Texts that fit into memory. *)
Definition small (s : text) : Prop := Z.of_nat (length s) < 2 ^ 64.

(** ** C69 *)
(** The specification determines the result, and trim computes it for every text. *)
Theorem C69_strips_unique : forall s, exists! t, strips s t.
Proof. intros s. destruct (strips_exist s) as (t & T). exists t. split; auto. intros t' T'. eapply strips_unique; eauto. Qed.
Theorem C69_splits_unique : forall d s, exists! parts, splits d s parts.
Proof. intros d s. destruct (splits_exist d s) as (t & T). exists t. split; auto. intros t' T'. eapply splits_unique; eauto. Qed.

Theorem C69_trim : forall s t, small s -> (trim s = Returns t <-> strips s t).
Proof.
  intros s t S. split.
  - intros E. destruct (strips_exist s) as (t' & T). rewrite (trim_correct _ _ T S) in E. congruence.
  - intros T. apply trim_correct; auto.
Qed.

Theorem C69_tokenize : forall d s parts ts, small s -> splits d s parts ->
  (tokenize s d = Returns ts <-> Forall2 strips (counted parts) ts).
Proof.
  intros d s parts ts S P. split.
  - intros E. destruct (tokenize_total d s S) as (parts' & ts' & P' & F & E'). rewrite (splits_unique _ _ _ _ P P'). congruence.
  - intros F. eapply tokenize_correct; eauto.
Qed.

Theorem C69_join : forall d ts, ts <> [] -> join ts [d] = glue d ts.
Proof. exact join_glue. Qed.

(** join undoes tokenize where nothing is trimmed away. *)
Theorem C69_round_trip : forall d s parts, small s -> splits d s parts -> Forall bare parts -> s <> [] -> (forall r, s <> r ++ [d]) ->
  exists ts, tokenize s d = Returns ts /\ join ts [d] = s.
Proof. intros d s parts S P B N E. eapply join_tokenize; eauto. Qed.

Example C69_case :
  trim (txt "  a b  ") = Returns (txt "a b") /\ trim (txt "   ") = Returns [] /\ trim (txt "x ") = Returns (txt "x") /\
  tokenize (txt " cpu MHz ;; 3;") ";"%char = Returns [txt "cpu MHz"; []; txt "3"] /\
  join [txt "a"; []; txt "b"] [blank] = txt "a  b".
Proof. repeat split. Qed.

(** ** C70 *)
(** The first line that names the CPU decides. *)
Theorem C70_named_partial : forall es e rest t,
  Forall well_formed es -> Forall (fun x => ~ names_cpu x) es -> well_formed e -> names_cpu e ->
  strips (e_value e) t -> t <> [] -> (rest = [] \/ exists r, rest = newline :: r) ->
  parse_proc_cpu (Some (lines_of es ++ entry_line e ++ rest)) = Returns t.
Proof. intros. apply proc_found; auto. Qed.

Theorem C70_unnamed : forall es, Forall well_formed es -> Forall (fun x => ~ names_cpu x) es ->
  parse_proc_cpu (Some (lines_of es)) = RuntimeError /\ parse_proc_cpu None = RuntimeError.
Proof. intros. split; [apply proc_none; auto|reflexivity]. Qed.

Definition intel : list entry :=
  [mkEntry (txt "processor") 1 (txt " 0"); mkEntry (txt "vendor_id") 1 (txt " GenuineIntel"); mkEntry (txt "cpu family") 1 (txt " 6")].

Ltac not_in := let H := fresh in intros H; vm_compute in H; repeat (destruct H as [H|H]; [discriminate H|]); exact H.
Ltac is_bare := split; [intros r H; discriminate H|]; intros r H; apply (f_equal (@rev ascii)) in H; rewrite rev_app_distr in H; discriminate H.
Ltac formed := repeat split; [not_in..|intros r H; discriminate H| |not_in|not_in|not_in|vm_compute; discriminate];
  (intros r H; apply (f_equal (@rev ascii)) in H; rewrite rev_app_distr in H; discriminate H).

Example C70_named_case :
  parse_proc_cpu (Some (lines_of intel ++ entry_line (mkEntry (txt "model name") 1 (txt " Intel(R) Core(TM)  i7")) ++ txt "")) =
  Returns (txt "Intel(R) Core(TM)  i7").
Proof.
  apply C70_named_partial.
  - repeat (apply Forall_cons; [formed|]); apply Forall_nil.
  - repeat (apply Forall_cons; [intros [_ [H|H]]; discriminate H|]); apply Forall_nil.
  - formed.
  - split; [repeat constructor|right; reflexivity].
  - exists [blank], []. repeat split; try (repeat constructor; fail).
    + intros r H. discriminate H.
    + intros r H. apply (f_equal (@rev ascii)) in H. rewrite rev_app_distr in H. discriminate H.
  - discriminate.
  - left. reflexivity.
Qed.

(** A blank line before the CPU is named (as in the first block of /proc/cpuinfo on
    ARM, which has no model name): tokens[0] of an empty vector. *)
Theorem C70_blank_line_refuted : forall es rest, Forall well_formed es -> Forall (fun x => ~ names_cpu x) es ->
  parse_proc_cpu (Some (lines_of es ++ newline :: rest)) = Undef.
Proof. exact blank_line_undefined. Qed.

(** A line that does not fit into the buffer ends the search, even before the name. *)
Theorem C70_long_line_refuted : forall es l rest, Forall well_formed es -> Forall (fun x => ~ names_cpu x) es ->
  ~ In newline l -> 4095 < Z.of_nat (length l) -> parse_proc_cpu (Some (lines_of es ++ l ++ rest)) = RuntimeError.
Proof. exact long_line. Qed.

(** The line of POWER machines has two tabs and is not recognised; a name with a
    colon is cut; an entry without a value is read beyond its end. *)
Theorem C70_power_refuted :
  parse_proc_cpu (Some (entry_line (mkEntry (txt "cpu") 2 (txt " POWER8 (raw), altivec supported")) ++ [newline])) = RuntimeError.
Proof.
  change (parse_proc_cpu (Some (lines_of [mkEntry (txt "cpu") 2 (txt " POWER8 (raw), altivec supported")])) = RuntimeError).
  apply C70_unnamed.
  - repeat (apply Forall_cons; [formed|]); apply Forall_nil.
  - apply Forall_cons; [intros [H _]; cbn in H; lia|]. apply Forall_nil.
Qed.
Theorem C70_odd_values_refuted :
  proc_line (entry_line (mkEntry (txt "model name") 1 (txt " Core: fast"))) = Returns (Some (txt "Core")) /\
  proc_line (entry_line (mkEntry (txt "model name") 1 [])) = Undef /\
  proc_line (entry_line (mkEntry (txt "model name") 1 (txt " "))) = Undef /\
  proc_line (entry_line (mkEntry (txt "cpu") 1 [])) = Undef /\
  proc_line (txt "cpu") = Undef.
Proof. repeat split; vm_compute; reflexivity. Qed.

(** ** C71 *)
Theorem C71_likwid_partial : forall size ls t n, Z.of_nat size < 2 ^ 64 -> Forall (csv_line size) ls ->
  noted (txt "CPU type") ls [] t -> noted (txt "CPU name") ls [] n -> t <> [] -> n <> [] ->
  forall file, device size (Some (csv_output ls)) file = Returns (t ++ txt ", " ++ n).
Proof.
  intros size ls t n S F T N NT NN file. unfold device. rewrite (likwid_correct size ls t n S F T N).
  destruct t, n; try congruence; reflexivity.
Qed.

(** Without likwid-topology (no output, or nothing noted) /proc/cpuinfo decides. *)
Theorem C71_fallback : forall size file,
  device size None file = device size (Some []) file /\
  (forall ls t n, Z.of_nat size < 2 ^ 64 -> Forall (csv_line size) ls ->
     noted (txt "CPU type") ls [] t -> noted (txt "CPU name") ls [] n -> t = [] \/ n = [] ->
     device size (Some (csv_output ls)) file = device size None file) /\
  (parse_proc_cpu file = RuntimeError -> device size None file = Returns (txt "unknown CPU")) /\
  (parse_proc_cpu file <> RuntimeError -> device size None file = parse_proc_cpu file).
Proof.
  intros size file. split; [reflexivity|]. split; [|split].
  - intros ls t n S F T N E. unfold device. rewrite (likwid_correct size ls t n S F T N).
    destruct t, n; try reflexivity. destruct E; discriminate.
  - intros E. unfold device. cbn. rewrite E. reflexivity.
  - intros E. unfold device. cbn. destruct (parse_proc_cpu file); congruence.
Qed.

Definition likwid_out : list (list text) :=
  [[txt "STRUCT"; txt "Info"; txt "3"; []];
   [txt "CPU name:"; txt "Intel(R) Xeon(R) "; []; []];
   [txt "CPU type:"; txt "Skylake"; []];
   [txt "x"]].

Definition run_lines := device 100 (Some (csv_output likwid_out)) None.
Example C71_case : run_lines = Returns (txt "Skylake, Intel(R) Xeon(R)").
Proof. vm_compute. reflexivity. Qed.

Lemma later_check w s : (fix go (s : text) := match s with [] => true | c :: r => negb (prefix w r) && go r end) s = true ->
  w <> [] -> ~ occurs_later w s.
Proof.
  intros H N (a & b & A & E). revert a A b E. induction s as [|c s IH]; intros a A b E; [destruct a; [congruence|discriminate]|].
  apply andb_true_iff in H. destruct H as [H1 H2]. destruct a as [|x a]; [congruence|]. cbn in E. injection E as _ E.
  destruct a as [|y a].
  - apply negb_true_iff in H1. assert (prefix w s = true) by (apply prefix_spec; exists b; exact E). congruence.
  - eapply (IH H2 (y :: a)); [discriminate|exact E].
Qed.

Example C71_case_lines : Forall (csv_line 100) likwid_out /\
  noted (txt "CPU type") likwid_out [] (txt "Skylake") /\ noted (txt "CPU name") likwid_out [] (txt "Intel(R) Xeon(R)").
Proof.
  assert (S : forall w s, prefix w s = true -> starts w s) by (intros; apply prefix_spec; auto).
  assert (M : forall w s, prefix w s = false -> ~ starts w s) by (intros w s H Q; apply prefix_spec in Q; congruence).
  assert (C : forall ps n, ps <> [] -> forallb (fun p => forallb (fun c => negb (existsb (Ascii.eqb c) [nul; newline; ","%char])) p) ps = true ->
     (length (csv ps) + 2 <= n)%nat -> (prefix (txt "CPU type") (csv ps) || prefix (txt "CPU name") (csv ps) = true -> (3 <= length ps)%nat) ->
     ~ occurs_later (txt "CPU type") (csv ps) -> ~ occurs_later (txt "CPU name") (csv ps) -> csv_line n ps).
  { intros ps n N F L K O1 O2. split; [exact N|]. split; [|split; [exact L|]].
    - apply Forall_forall. intros p I. rewrite forallb_forall in F. specialize (F p I). rewrite forallb_forall in F.
      repeat split; intros J; specialize (F _ J); discriminate F.
    - repeat constructor; auto; intros (r & Q); apply K; rewrite (proj2 (prefix_spec _ _) (ex_intro _ r Q)); [reflexivity|apply orb_true_r]. }
  split; [|split].
  - repeat (apply Forall_cons; [|]); try apply Forall_nil; apply C; try discriminate; try reflexivity; try (vm_compute; lia); try (intros _; vm_compute; lia);
      try (apply later_check; [vm_compute; reflexivity|discriminate]); (vm_compute; intros Q; discriminate Q).
  - unfold likwid_out. apply noted_miss; [apply M; reflexivity|]. apply noted_miss; [apply M; reflexivity|].
    eapply noted_hit; [apply S; reflexivity|reflexivity|apply bare_strips; is_bare|]. apply noted_miss; [apply M; reflexivity|constructor].
  - unfold likwid_out. apply noted_miss; [apply M; reflexivity|].
    eapply (noted_hit _ _ _ _ _ _ (txt "Intel(R) Xeon(R)")); [apply S; reflexivity|reflexivity| |].
    + exists [], [blank]. split; [reflexivity|]. split; [constructor|]. split; [repeat constructor|is_bare].
    + apply noted_miss; [apply M; reflexivity|]. apply noted_miss; [apply M; reflexivity|constructor].
Qed.

(** "device() returns for every output" is false: a key in the last field is read
    beyond the end of the vector; with only two fields the value drags the newline, the
    terminating 0 and what an earlier, longer line left in the buffer. *)
Theorem C71_total_refuted :
  device 100 (Some (csv_output [[txt "CPU type unknown"]])) None = Undef /\
  device 60 (Some (csv_output [[txt "0123456789012345678STALE"]; [txt "CPU name:"; txt "A"; []]; [txt "CPU type:"; txt "B"]])) None =
    Returns (txt "B" ++ [newline; nul; nul] ++ txt "45678STALE" ++ [newline; nul] ++ txt ", A").
Proof. split; vm_compute; reflexivity. Qed.

(** ** C72 *)
(** A benchmark is run exactly if its family contains the name; the line printed
    splits at the semicolons into the ten values. *)
Theorem C72_selected : forall name revision now host perf b dim out,
  (~ occurs name (b_family b) -> evaluate name revision now host perf b dim out = Returns None) /\
  (occurs name (b_family b) -> dim <> [] -> out = true -> exists line, evaluate name revision now host perf b dim out = Returns (Some line)).
Proof.
  intros. unfold evaluate. split.
  - intros N. rewrite contains_false by auto. reflexivity.
  - intros O D ->. rewrite (proj2 (contains_spec _ _) O). cbn [negb]. destruct dim as [|d r]; [congruence|]. rewrite pretty_text. cbn [andThen]. eauto.
Qed.

Theorem C72_columns : forall name revision now host perf b dim line d ts,
  evaluate name revision now host perf b dim true = Returns (Some line) -> pretty_dim dim = Returns d ->
  let values := [revision; now; c_string host; b_device b; b_order b; b_family b; b_species b; d; perf; b_unit b] in
  Forall (fun s => ~ In ";"%char s) values -> Forall2 strips values ts -> small line ->
  tokenize line ";"%char = Returns ts.
Proof.
  intros name revision now host perf b dim line d ts E D values F S Sm. unfold evaluate in E.
  destruct (contains name (b_family b)); cbn [negb] in E; [|discriminate]. rewrite D in E. cbn [andThen] in E.
  rewrite line_columns in E.
  match type of E with Returns (Some ?x) = _ => assert (EL : line = x) by congruence end. rewrite EL in *. clear E EL.
  eapply tokenize_correct; [split; [|split; [|reflexivity]]|..].
  - discriminate.
  - apply columns_free. exact F.
  - rewrite counted_all; [apply columns_strips; exact S|discriminate|discriminate].
  - exact Sm.
Qed.

(** The dimensions: in parentheses, decimal, separated by ", ". *)
Theorem C72_dimensions : forall d r, Forall (fun x => - 2 ^ 31 <= x < 2 ^ 31) (d :: r) ->
  exists p ps, pretty_dim (d :: r) = Returns ("("%char :: glue ","%char (p :: map (cons blank) ps) ++ [")"%char]) /\
    Forall2 integer (p :: ps) (d :: r) /\ Forall (fun s => ~ In ","%char s) (p :: ps).
Proof.
  intros d r F. exists (print_int d), (map print_int r). rewrite pretty_text. split.
  - rewrite map_map. reflexivity.
  - inversion F as [|? ? F1 F2]; subst.
    assert (A : Forall2 integer (print_int d :: map print_int r) (d :: r)).
    { constructor; [apply print_integer; auto|]. induction F2; constructor; auto; apply print_integer; auto. }
    split; [exact A|]. clear F F1 F2.
    remember (print_int d :: map print_int r) as ps. remember (d :: r) as ns. clear Heqps Heqns.
    induction A as [|s n ps ns H A IH]; constructor; auto. eapply integer_no; [exact H| |discriminate].
    unfold is_digit. vm_compute. intros [Q _]. apply Q. reflexivity.
Qed.

(** The columns line up with the header, unless a value is wider than its column. *)
Theorem C72_aligned_partial : forall name revision now host perf b dim line d,
  evaluate name revision now host perf b dim true = Returns (Some line) -> pretty_dim dim = Returns d ->
  Forall (fun s => ~ In ";"%char s) [revision; now; c_string host; b_device b; b_order b; b_family b; b_species b; d; perf; b_unit b] ->
  (length revision <= 18)%nat -> length now = 20%nat -> (length (c_string host) <= 32)%nat -> (length (b_device b) <= 48)%nat ->
  (length (b_order b) <= 8)%nat -> (length (b_family b) <= 32)%nat -> (length (b_species b) <= 8)%nat -> (length d <= 24)%nat ->
  (length perf <= 12)%nat ->
  positions ";"%char 0 line = positions ";"%char 0 header.
Proof.
  intros name revision now host perf b dim line d E D F W1 W2 W3 W4 W5 W6 W7 W8 W9. unfold evaluate in E.
  destruct (contains name (b_family b)); cbn [negb] in E; [|discriminate]. rewrite D in E. cbn [andThen] in E.
  rewrite line_columns in E.
  match type of E with Returns (Some ?x) = _ => assert (EL : line = x) by congruence end. rewrite EL in *. clear E EL.
  rewrite positions_glue by (apply columns_free; exact F). rewrite column_lengths by assumption. vm_compute. reflexivity.
Qed.

Theorem C72_header : tokenize header ";"%char =
  Returns (map txt ["#rev"; "date"; "host"; "device"; "order"; "family"; "species"; "dimensions"; "perf"; "unit"]%string).
Proof. vm_compute. reflexivity. Qed.

(** A benchmark without dimensions that is selected: dim[0] does not exist. *)
Theorem C72_no_dimensions_refuted : forall name revision now host perf b out, occurs name (b_family b) ->
  evaluate name revision now host perf b [] out = Undef.
Proof. intros. unfold evaluate. rewrite (proj2 (contains_spec _ _) H). reflexivity. Qed.

Definition demo : answers := mkAnswers (txt "CPU") (txt "JacobiD3Q7") (txt "gold") (txt "GLUPS") (txt "unknown CPU").
Example C72_case : exists line,
  evaluate (txt "D3Q7") (txt "abc") (txt "2026-Nov-16 14:00:00") (txt "host" ++ [nul; nul]) (txt "1.5") demo [192; 192; -3] true = Returns (Some line) /\
  tokenize line ";"%char = Returns (map txt ["abc"; "2026-Nov-16 14:00:00"; "host"; "unknown CPU"; "CPU"; "JacobiD3Q7"; "gold"; "(192, 192, -3)"; "1.5"; "GLUPS"]%string) /\
  positions ";"%char 0 line = positions ";"%char 0 header.
Proof. eexists. repeat split; vm_compute; reflexivity. Qed.
Example C72_case_dim : integer (print_int (-192)) (-192) /\ evaluate (txt "Q9") [] [] [] [] demo [] true = Returns None.
Proof. split; [apply print_integer; lia|reflexivity]. Qed.

Print Assumptions C69_strips_unique.
Print Assumptions C69_splits_unique.
Print Assumptions C69_trim.
Print Assumptions C69_tokenize.
Print Assumptions C69_join.
Print Assumptions C69_round_trip.
Print Assumptions C70_named_partial.
Print Assumptions C70_unnamed.
Print Assumptions C70_blank_line_refuted.
Print Assumptions C70_long_line_refuted.
Print Assumptions C70_power_refuted.
Print Assumptions C70_odd_values_refuted.
Print Assumptions C71_likwid_partial.
Print Assumptions C71_fallback.
Print Assumptions C71_total_refuted.
Print Assumptions C72_selected.
Print Assumptions C72_columns.
Print Assumptions C72_dimensions.
Print Assumptions C72_aligned_partial.
Print Assumptions C72_header.
Print Assumptions C72_no_dimensions_refuted.
