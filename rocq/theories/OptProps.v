(** Theorems about the option lookup. *)
From Verif Require Import Base CStr StrSpec StrProofs OptModel OptSpec OptProofs.

(** C50: sc_option_at returns the letter of the first option the argument names,
    with the value pointing at the value's text, and '?' with NULL when the
    argument names none.  It stays inside the argument and the names.  Missing: the
    argument "-" with a letter 0 in the table (option_dash_refuted). *)
Theorem option_at_first_partial items opts argv index arg tl :
  Forall2 stored items opts -> Forall opt_ok opts -> zget argv index = Some (arg ++ 0 :: tl) -> nonul arg -> zlen arg < 2^63 ->
  (arg = [45] -> forall o, In o opts -> fst o <> 0) ->
  (exists letter v off, first_named opts arg letter v /\ option_at items (zlen items) argv index = Ok (letter, Some off) /\
     skipn (Z.to_nat off) (arg ++ 0 :: tl) = v ++ 0 :: tl) \/
  (forall o w, In o opts -> ~ names o arg w) /\ option_at items (zlen items) argv index = Ok (63, None).
Proof.
  intros Hs Hok Ha Hn Hl H. destruct (option_at_ok items opts argv index arg tl Hs Hok Ha Hn Hl H) as [(letter & v & off & F & E & G)|R]; [left|now right].
  exists letter, v, off. split; [exact F|]. split; [exact E|]. unfold from in G. destruct ((0 <=? off) && (off <=? _)); [now injection G|discriminate].
Qed.
Print Assumptions option_at_first_partial.
(** -k / --key, -l without name, --long without letter *)
Definition opt_demo : list opt := [(107, Some [107; 101; 121]); (108, None); (0, Some [108; 111; 110; 103])].
Definition opt_demo_items : list opt_item := [(107, Some [107; 101; 121; 0]); (108, None); (0, Some [108; 111; 110; 103; 0; 9])].
Example option_at_example : Forall2 stored opt_demo_items opt_demo /\ Forall opt_ok opt_demo /\
  option_at opt_demo_items 3 [[45; 107; 61; 118; 0]; [45; 45; 107; 101; 121; 61; 118; 0]; [45; 45; 107; 101; 0]; [45; 108; 0]] 0 = Ok (107, Some 3) /\
  option_at opt_demo_items 3 [[45; 107; 61; 118; 0]; [45; 45; 107; 101; 121; 61; 118; 0]; [45; 45; 107; 101; 0]; [45; 108; 0]] 1 = Ok (107, Some 6) /\
  option_at opt_demo_items 3 [[45; 107; 61; 118; 0]; [45; 45; 107; 101; 121; 61; 118; 0]; [45; 45; 107; 101; 0]; [45; 108; 0]] 2 = Ok (63, None) /\
  option_at opt_demo_items 3 [[45; 107; 61; 118; 0]; [45; 45; 107; 101; 121; 61; 118; 0]; [45; 45; 107; 101; 0]; [45; 108; 0]] 3 = Ok (108, Some 2).
Proof.
  split; [|split; [|repeat split; reflexivity]].
  - repeat constructor; cbn; eexists; reflexivity.
  - repeat constructor; cbn; lia.
Qed.
(** The letter and value are determined by the table and the argument. *)
Theorem option_first_unique opts arg l1 v1 l2 v2 : Forall opt_ok opts -> nonul arg ->
  first_named opts arg l1 v1 -> first_named opts arg l2 v2 -> l1 = l2 /\ v1 = v2.
Proof.
  intros Hok Hn (p1 & o1 & q1 & E1 & -> & N1 & F1) (p2 & o2 & q2 & E2 & -> & N2 & F2).
  assert (E : o1 = o2).
  { rewrite E1 in E2. clear - E2 N1 N2 F1 F2. revert p2 E2 F2. induction p1 as [|x p1 IH]; intros [|y p2] [=] F2; subst; auto.
    - exfalso. apply (F2 y v1); [now left|exact N1].
    - exfalso. apply (F1 o2 v2); [now left|exact N2].
    - apply (IH (fun p w Hp => F1 p w (or_intror Hp)) p2 H0 (fun p w Hp => F2 p w (or_intror Hp))). }
  subst o2. split; [reflexivity|]. rewrite Forall_forall in Hok. assert (Ho : opt_ok o1) by (apply Hok; rewrite E1; apply in_app_iff; right; now left).
  destruct arg as [|a [|c arg]]; [inversion N1|inversion N1|]. assert (a = 45) by (inversion N1; reflexivity). subst a.
  destruct (Z.eq_dec c 45) as [->|Nc].
  - assert (exists nm more, arg = nm ++ match more with None => [] | Some w => 61 :: w end /\ ~ In 61 nm) as (nm & more & -> & Hnm).
    { clear. induction arg as [|x arg (nm & more & E & H)]; [exists [], None; split; [reflexivity|intros []]|].
      destruct (Z.eq_dec x 61) as [->|N]; [exists [], (Some arg); split; [reflexivity|intros []]|].
      exists (x :: nm), more. split; [cbn; now f_equal|]. intros [|]; auto. }
    apply (names_long o1 nm more) in N1; [|exact Ho|exact Hnm]. apply (names_long o1 nm more) in N2; [|exact Ho|exact Hnm]. congruence.
  - apply names_letter in N1; [|exact Nc]. apply names_letter in N2; [|exact Nc]. destruct N1, N2. congruence.
Qed.
Print Assumptions option_first_unique.
Example option_first_example : first_named opt_demo [45; 45; 108; 111; 110; 103; 61; 120] 0 [120].
Proof.
  exists [(107, Some [107; 101; 121]); (108, None)], (0, Some [108; 111; 110; 103]), []. split; [reflexivity|]. split; [reflexivity|].
  split; [apply (N_name_value (0, Some [108; 111; 110; 103]) [108; 111; 110; 103] [120]); reflexivity|].
  intros p w [<-|[<-|[]]] H; inversion H as [| | |n E E2|n v E E2]; try discriminate; injection E as <-; discriminate.
Qed.

(** C50, the part that is false: in a table with an option that has no letter
    (letter 0), the argument "-" makes the code read behind the argument. *)
Theorem option_dash_refuted : exists items opts, Forall2 stored items opts /\ Forall opt_ok opts /\
  option_at items (zlen items) [[45; 0]] 0 = UB.
Proof.
  exists [(0, Some [108; 0])], [(0, Some [108])]. split; [|split].
  - repeat constructor. cbn. eexists; reflexivity.
  - repeat constructor; cbn; lia.
  - reflexivity.
Qed.
Print Assumptions option_dash_refuted.
(** When memory happens to follow, it is read and the option may be reported. *)
Example option_dash_behind : option_at [(0, Some [108; 0])] 1 [[45; 0; 61; 120; 0]] 0 = Ok (0, Some 3). Proof. reflexivity. Qed.
(** The header promises that *value is never NULL; it is for unknown options. *)
Theorem option_value_null_refuted : exists items opts arg, Forall2 stored items opts /\ Forall opt_ok opts /\ nonul arg /\
  option_at items (zlen items) [arg ++ [0]] 0 = Ok (63, None).
Proof.
  exists [(107, None)], [(107, None)], [45; 120]. split; [|split; [|split]].
  - repeat constructor.
  - repeat constructor; cbn; lia.
  - unfold nonul; cbn; lia.
  - reflexivity.
Qed.
Print Assumptions option_value_null_refuted.
(** Letter followed by text: "-kv" names nothing; after a space the value keeps
    the space. *)
Example option_glued : option_at [(107, None)] 1 [[45; 107; 118; 0]] 0 = Ok (63, None) /\ option_at [(107, None)] 1 [[45; 107; 32; 118; 0]] 0 = Ok (107, Some 2).
Proof. split; reflexivity. Qed.
