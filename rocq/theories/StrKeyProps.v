(** Property C137: how long the strings given as keys are used. *)
From Verif Require Import Base MapModel MapSpec MapProofs MapProps StrKeyModel.

(** ** The contract *)
(** The texts, with a released string standing for an empty one: only used where the string is there. *)
Definition texts (c : strs) (p : Z) : list Z := match c p with Some s => s | None => [] end.

(** The key a call is given is NULL or a string. *)
Definition arg_there {V} (c : strs) (o : mop Z V) : Prop :=
  match o with
  | Put k _ _ | Get k | Del k => k <> 0 -> c k <> None
  | Clear | Term => True
  end.

(** [l] lists the keys now in the map, by address, with their values.  Before each call the user may release, overwrite and
    allocate strings at will, except those in [l]; the call gets a key that is there.  Then no released string is read, the
    result is that of the ideal map with keys compared by text, and the address in the map is that of the last put. *)
Fixpoint strings_free {V} (vzero : V) (c : strs) (m : smap Z V) (l : list (Z * V)) (hist : list (strs * mop Z V)) : Prop :=
  match hist with
  | [] => True
  | (c', o) :: rest =>
      (forall p v, In (p, v) l -> p <> 0 -> c' p = c p) -> arg_there c' o ->
      exists m' ret, sk_step vzero c' m o = Ok (m', ret) /\
        let ko := ops_str (texts c') in
        let l' := MapSpec.ideal ko l o (failed o m') in
        ret = orz vzero (ideal_ret ko l o (failed o m')) /\
        (match o with
         | Put k v ok => (oom m' = true -> ok = false \/ 2^31 <= cap m) /\ (oom m' = false -> found m' = some (lookup ko k l))
         | Get k | Del k => found m' = some (lookup ko k l)
         | _ => True
         end) /\
        shows ko vzero m' l' /\ strings_free vzero c' m' l' rest
  end.

(** ** Proofs *)
Section Proofs.
Context {V : Type} (vzero : V).

(** The strings of the keys in table [t] are there. *)
Definition there (c : strs) (t : list (slot Z V)) : Prop :=
  forall i s, zget t i = Some s -> skey s <> 0 -> c (skey s) <> None.

Lemma texts_rd c p : c p <> None -> rd c p = Ok (texts c p).
Proof. unfold rd, texts. destruct (c p); [reflexivity|easy]. Qed.

Lemma zload_zget {A} (l : list A) i x : zload l i = Ok x -> zget l i = Some x.
Proof. unfold zload. destruct (zget l i); cbn; congruence. Qed.

Lemma probe_same c t mod_ k h : there c t -> c k <> None ->
  forall fuel pos, sk_probe c fuel t mod_ pos k h = probe (ops_str (texts c)) fuel t mod_ pos k h.
Proof.
  intros Ht Hk. induction fuel as [|fuel IH]; intro pos; [reflexivity|]. cbn [sk_probe probe].
  destruct (zload t pos) as [x| |] eqn:El; cbn [bind]; try reflexivity. apply zload_zget in El.
  cbn [ops_str isnull]. destruct (Z.eqb_spec (skey x) 0) as [E|E]; [reflexivity|].
  unfold sk_cmp, map_cmp. cbn [ops_str strk keq]. destruct (shash x =? h); cbn [andb bind]; [|apply IH].
  rewrite (texts_rd c (skey x)) by (now apply (Ht pos)). rewrite (texts_rd c k Hk). cbn [bind].
  destruct (bytes_eqb _ _); [reflexivity|apply IH].
Qed.

(** Rehashing and back-shifting do not look at the strings. *)
Lemma backshift_same c c' fuel (t : list (slot Z V)) mod_ prev it :
  backshift (ops_str c) fuel t mod_ prev it = backshift (ops_str c') fuel t mod_ prev it.
Proof. reflexivity. Qed.
Lemma remap_same c c' (m : smap Z V) ok : map_remap (ops_str c) vzero m ok = map_remap (ops_str c') vzero m ok.
Proof. reflexivity. Qed.

(** A well-formed map: the strings of its keys determine everything. *)
Lemma there_wf c m l : MapProofs.wf (ops_str (texts c)) m l -> (forall p v, In (p, v) l -> p <> 0 -> c p <> None) ->
  there c (mem m).
Proof.
  intros W Hc i s Hi Hs.
  assert (In (skey s, sval s) l).
  { apply (Permutation_in _ (w_ents _ _ _ W)). apply in_or_app. right. apply In_ents. exists i, s. split; [exact Hi|].
    split; [|reflexivity]. unfold occ. cbn [ops_str isnull]. now rewrite (proj2 (Z.eqb_neq _ _) Hs). }
  now apply (Hc _ (sval s)).
Qed.

Lemma step_same c m l o : MapProofs.wf (ops_str (texts c)) m l -> (forall p v, In (p, v) l -> p <> 0 -> c p <> None) ->
  arg_there c o -> sk_step vzero c m o = map_step (ops_str (texts c)) vzero m o.
Proof.
  intros W Hc Ha. pose proof (there_wf c m l W Hc) as Ht.
  destruct o as [k v ok|k|k| |]; cbn [sk_step map_step arg_there] in *.
  - unfold sk_put, map_put. cbv zeta.
    set (m1 := mk_map (mem m) (zslot m) (static m) (cap m) (size m) (load_fac m) (remap m) (used m) false (found m)).
    assert (W1 : MapProofs.wf (ops_str (texts c)) m1 l) by (apply (wf_set_flags (ops_str (texts c)) m l false (found m) W)).
    unfold sk_ops. rewrite (remap_same (fun _ => []) (texts c)).
    destruct (remap_ok _ vzero (ops_str_lawful (texts c)) m1 l ok W1) as [[-> _]|(m2 & -> & W2 & _)]; cbn [bind]; [reflexivity|].
    cbn [ops_str isnull hashk]. destruct (Z.eqb_spec k 0) as [E|E]; [reflexivity|].
    rewrite (texts_rd c k) by auto. cbn [bind].
    rewrite probe_same; [|now apply (there_wf c m2 l)|auto].
    destruct (probe _ _ _ _ _ _ _) as [[pos x]| |]; cbn [bind]; reflexivity.
  - unfold sk_get, map_get. cbv zeta. cbn [ops_str isnull hashk]. destruct (Z.eqb_spec k 0) as [E|E]; [reflexivity|].
    rewrite (texts_rd c k) by auto. cbn [bind]. rewrite probe_same by auto.
    destruct (probe _ _ _ _ _ _ _) as [[pos x]| |]; cbn [bind]; reflexivity.
  - unfold sk_del, map_del. cbv zeta. cbn [ops_str isnull hashk knull]. destruct (Z.eqb_spec k 0) as [E|E]; [reflexivity|].
    rewrite (texts_rd c k) by auto. cbn [bind]. rewrite probe_same by auto.
    destruct (probe _ _ _ _ _ _ _) as [[pos x]| |]; cbn [bind]; try reflexivity.
  - reflexivity.
  - reflexivity.
Qed.

Lemma same_texts c c' a b : (a <> 0 -> c' a = c a) -> (b <> 0 -> c' b = c b) ->
  MapSpec.same (ops_str (texts c')) a b = MapSpec.same (ops_str (texts c)) a b.
Proof.
  intros Ha Hb. unfold MapSpec.same. cbn [ops_str isnull keq].
  destruct (Z.eqb_spec a 0); [reflexivity|]. destruct (Z.eqb_spec b 0); [reflexivity|].
  unfold texts. now rewrite Ha, Hb.
Qed.

Lemma wf_texts c c' (m : smap Z V) l : MapProofs.wf (ops_str (texts c)) m l ->
  (forall p v, In (p, v) l -> p <> 0 -> c' p = c p) -> MapProofs.wf (ops_str (texts c')) m l.
Proof.
  intros W Hc.
  assert (Ht : forall i s, zget (mem m) i = Some s -> skey s <> 0 -> texts c' (skey s) = texts c (skey s)).
  { intros i s Hi Hs. unfold texts. rewrite (Hc _ (sval s)); [reflexivity| |exact Hs].
    apply (Permutation_in _ (w_ents _ _ _ W)). apply in_or_app. right. apply In_ents. exists i, s. split; [exact Hi|].
    split; [|reflexivity]. unfold occ. cbn [ops_str isnull]. now rewrite (proj2 (Z.eqb_neq _ _) Hs). }
  assert (Hnz : forall s : slot Z V, occ (ops_str (texts c')) s = true -> skey s <> 0).
  { intros s. unfold occ. cbn [ops_str isnull]. intros H E. rewrite E in H. discriminate. }
  destruct W as [[Wl Wp Wh] Wc Wlf Wk Wz Ws Wr We Wu]. constructor; auto.
  - constructor; auto. intros i s Hi Ho Hst. rewrite (Wh i s Hi Ho Hst). cbn [ops_str hashk].
    now rewrite (Ht i s Hi (Hnz s Ho)).
  - intros i s j Hi Ho Hj Hd.
    assert (E : home (ops_str (texts c')) (cap m) s = home (ops_str (texts c)) (cap m) s).
    { unfold home. cbn [ops_str hashk]. now rewrite (Ht i s Hi (Hnz s Ho)). }
    rewrite E in Hd. exact (Wc i s j Hi Ho Hj Hd).
  - clear - Wu Hc. induction l as [|[a x] l IH]; cbn [uniq] in *; [exact I|]. destruct Wu as [H1 H2].
    split; [|apply IH; [exact H2|]; intros p v Hp; apply (Hc p v); now right].
    intros [b y] Hq. cbn [fst]. rewrite (same_texts c c').
    + apply (H1 (b, y) Hq).
    + apply (Hc a x). now left.
    + apply (Hc b y). now right.
Qed.

Lemma after_there c m l (o : mop Z V) : (forall p v, In (p, v) l -> p <> 0 -> c p <> None) -> arg_there c o ->
  forall p v, In (p, v) (MapSpec.ideal (ops_str (texts c)) l o (failed o m)) -> p <> 0 -> c p <> None.
Proof.
  intros Hc Ha p v Hi Hp. destruct o as [k x ok|k|k| |]; cbn [MapSpec.ideal arg_there failed] in *; try (now apply (Hc p v)); try easy.
  - destruct (oom m); [now apply (Hc p v)|]. destruct Hi as [E|Hi].
    + injection E as -> ->. auto.
    + apply filter_In in Hi as [Hi _]. now apply (Hc p v).
  - apply filter_In in Hi as [Hi _]. now apply (Hc p v).
Qed.

Lemma strings_ok : forall hist c m l, MapProofs.wf (ops_str (texts c)) m l ->
  (forall p v, In (p, v) l -> p <> 0 -> c p <> None) -> strings_free vzero c m l hist.
Proof.
  induction hist as [|[c' o] rest IH]; intros c m l W Hc; cbn [strings_free]; [exact I|].
  intros Heq Ha. pose proof (wf_texts c c' m l W Heq) as W'.
  assert (Hc' : forall p v, In (p, v) l -> p <> 0 -> c' p <> None).
  { intros p v Hi Hp. rewrite (Heq p v Hi Hp). now apply (Hc p v). }
  pose proof (ops_str_lawful (texts c')) as Hl.
  destruct (step_ok _ vzero Hl m l o W') as (m' & ret & Hs & Hret & Hfo & Wn).
  exists m', ret. split; [rewrite (step_same c' m l o W' Hc' Ha); exact Hs|].
  split; [exact Hret|]. split; [exact Hfo|]. split; [now apply wf_shows|].
  apply IH; [exact Wn|]. now apply after_there.
Qed.
End Proofs.

(** ** The theorem *)
Theorem map_string_lifetime :
  forall (V : Type) (vzero : V) g cp lf ok m c hist, 0 <= cp <= 2^31 ->
    map_init sk_ops vzero g cp lf ok = Some m -> strings_free vzero c m [] hist.
Proof.
  intros V vzero g cp lf ok m c hist Hcp Hi. apply strings_ok; [|easy].
  apply (init_ok (ops_str (texts c)) vzero (ops_str_lawful _) g cp lf ok m Hcp).
  rewrite <- Hi. reflexivity.
Qed.
Print Assumptions map_string_lifetime.

(** The string at address 100 is put; an equal one at 200 replaces it, the first is released; then a third one at 300 deletes
    it and 200 is released too. *)
Definition str_at (l : list (Z * list Z)) : strs := fun p => option_map snd (find (fun e => fst e =? p) l).
Fixpoint sk_run (m : smap Z Z) (hist : list (strs * mop Z Z)) : res (list (Z * bool)) :=
  match hist with
  | [] => Ok []
  | (c, o) :: rest =>
      let* (m, r) := sk_step 0 c m o in
      let* t := sk_run m rest in Ok ((r, found m) :: t)
  end.
Definition sk_start : smap Z Z := match map_init sk_ops 0 (map_empty sk_ops 0) 4 0 true with Some m => m | None => map_empty sk_ops 0 end.
Example map_string_lifetime_example :
  sk_run sk_start
    [(str_at [(100, [97; 98])], Put 100 1 true);
     (str_at [(100, [97; 98]); (200, [97; 98])], Put 200 2 true);
     (str_at [(200, [97; 98])], Get 200);
     (str_at [(200, [97; 98]); (300, [97; 98])], Del 300);
     (str_at [(300, [97; 98])], Get 300)]
  = Ok [(0, false); (1, true); (2, true); (2, true); (0, false)].
Proof. vm_example. Qed.

(** Releasing the string of a key that is in the map is an error, which the model sees. *)
Example map_string_released_example :
  sk_run sk_start [(str_at [(100, [97; 98])], Put 100 1 true); (str_at [(200, [97; 98])], Get 200)] = UB.
Proof. vm_example. Qed.
