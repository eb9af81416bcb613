(** C114: which secrets stay in memory after keys were used. *)
From Coq Require Import Lia Permutation.
From Verif Require Import Base KeyType PubKeyType PrivKey Memory SpecMemory MemoryFacts PropPrivKey.

Lemma nth_values vars m i :
  nth_error (map (option_map (load m)) vars) i =
  option_map (option_map (load m)) (nth_error vars i).
Proof. apply nth_error_map. Qed.

Lemma set_pin_ok p k m own :
  owns (buffers (mk_kind k) ++ own) m ->
  let '(k', m') := mem_set_pin p k m in
  owns (buffers (mk_kind k') ++ own) m' /\ load m' k' = set_pin p (load m k) /\
  Permutation (leftovers m')
    (filter (fun b => negb (zeros b))
       (match hw_data (load m k) with Some h => opt_list (hw_pin h) | None => [] end) ++ leftovers m) /\
  forall x, In x own -> nth_error m' x = nth_error m x.
Proof.
  destruct k as [t kd pb mg cm]. unfold mem_set_pin, with_mkind, load, hw_data, set_pin.
  cbn [mk_type mk_kind mk_pub mk_magic mk_comment sk_kind].
  destruct kd as [n e d c pp q exp exq|c key|f h r pin path|key|f h r pin path]; intros O;
    try (cbn [mk_type mk_kind mk_pub mk_magic mk_comment load_kind]; split; [exact O|]; split; [reflexivity|];
         split; [reflexivity|intros; reflexivity]).
  all: destruct (alloc p m) as [a m1] eqn:E; cbn [mk_type mk_kind mk_pub mk_magic mk_comment].
  all: destruct (replace_ok p pin a m m1 ([h; r] ++ opt_list path) own) as (O' & C & P & K); [|exact E|].
  1,3: eapply owns_perm; [|exact O]; cbn [buffers]; destruct pin as [x|]; cbn [opt_list List.app];
       [|reflexivity]; etransitivity; [apply perm_skip, perm_swap|]; etransitivity; [apply perm_swap|]; reflexivity.
  all: split; [|split; [|split]].
  1,5: eapply owns_perm; [|exact O']; cbn [buffers opt_list List.app];
       etransitivity; [apply perm_swap|]; apply perm_skip, perm_swap.
  2,5: cbn [load_kind sk_kind load_hw hw_pin]; destruct pin; exact P.
  2,4: intros x I; apply K, in_or_app; now right.
  all: cbn [load_kind]; unfold load_hw; cbn [option_map]; rewrite C.
  all: assert (Kc : forall x, In x ([h; r] ++ opt_list path) -> contents (free_opt pin m1) x = contents m x)
    by (intros x I; apply contents_ext, K, in_or_app; now left).
  all: rewrite (Kc h), (Kc r) by (cbn; tauto).
  all: assert (Ep : option_map (contents (free_opt pin m1)) path = option_map (contents m) path)
    by (destruct path as [x|]; [cbn; f_equal; apply Kc; cbn; tauto|reflexivity]).
  all: rewrite Ep; reflexivity.
Qed.

Lemma set_path_ok p k m own :
  owns (buffers (mk_kind k) ++ own) m ->
  let '(k', m') := mem_set_path p k m in
  owns (buffers (mk_kind k') ++ own) m' /\ load m' k' = set_device_path p (load m k) /\
  Permutation (leftovers m')
    (filter (fun b => negb (zeros b))
       (match hw_data (load m k) with Some h => opt_list (hw_device_path h) | None => [] end) ++ leftovers m) /\
  forall x, In x own -> nth_error m' x = nth_error m x.
Proof.
  destruct k as [t kd pb mg cm]. unfold mem_set_path, with_mkind, load, hw_data, set_device_path.
  cbn [mk_type mk_kind mk_pub mk_magic mk_comment sk_kind].
  destruct kd as [n e d c pp q exp exq|c key|f h r pin path|key|f h r pin path]; intros O;
    try (cbn [mk_type mk_kind mk_pub mk_magic mk_comment load_kind]; split; [exact O|]; split; [reflexivity|];
         split; [reflexivity|intros; reflexivity]).
  all: destruct (alloc p m) as [a m1] eqn:E; cbn [mk_type mk_kind mk_pub mk_magic mk_comment].
  all: destruct (replace_ok p path a m m1 ([h; r] ++ opt_list pin) own) as (O' & C & P & K); [|exact E|].
  1,3: eapply owns_perm; [|exact O]; cbn [buffers]; rewrite !app_assoc; apply Permutation_app_tail;
       rewrite <- !app_assoc; etransitivity; [|apply Permutation_app_comm]; rewrite <- !app_assoc; reflexivity.
  all: split; [|split; [|split]].
  1,5: eapply owns_perm; [|exact O']; cbn [buffers opt_list];
       change (a :: ([h; r] ++ opt_list pin) ++ own) with (([a] ++ ([h; r] ++ opt_list pin)) ++ own);
       apply Permutation_app_tail; etransitivity; [apply Permutation_app_comm|]; rewrite <- !app_assoc; reflexivity.
  2,5: cbn [load_kind sk_kind load_hw hw_device_path]; destruct path; exact P.
  2,4: intros x I; apply K, in_or_app; now right.
  all: cbn [load_kind]; unfold load_hw; cbn [option_map]; rewrite C.
  all: assert (Kc : forall x, In x ([h; r] ++ opt_list pin) -> contents (free_opt path m1) x = contents m x)
    by (intros x I; apply contents_ext, K, in_or_app; now left).
  all: rewrite (Kc h), (Kc r) by (cbn; tauto).
  all: assert (Ep : option_map (contents (free_opt path m1)) pin = option_map (contents m) pin)
    by (destruct pin as [x|]; [cbn; f_equal; apply Kc; cbn; tauto|reflexivity]).
  all: rewrite Ep; reflexivity.
Qed.

Lemma step_good o s values gone :
  good s values gone -> good (mem_step o s) (value_step o values) (gone ++ replaced_now o values).
Proof.
  destruct s as [vars m]. intros G.
  assert (N : forall i, nth_error values i = option_map (option_map (load m)) (nth_error vars i)).
  { intros i. destruct G as (_ & V & _). cbn [fst snd] in V. rewrite <- V. apply nth_values. }
  destruct o as [k|i|i p|i p|i]; cbn [mem_step value_step replaced_now].
  - rewrite app_nil_r. apply good_new, G.
  - rewrite app_nil_r, N. destruct (nth_error vars i) as [[k|]|]; cbn [option_map]; [|exact G..].
    apply good_new, G.
  - rewrite N. destruct (nth_error vars i) as [[k|]|] eqn:E; cbn [option_map];
      [|rewrite app_nil_r; exact G..].
    pose proof (fun own => set_pin_ok p k m own) as H. destruct (mem_set_pin p k m) as [k' m'].
    apply (good_change i k vars m values gone (Some k') m' _ (fun k => Some (set_pin p k)) E G).
    intros own O. destruct (H own O) as (O' & L & P & K). split; [exact O'|]. split; [cbn; now rewrite L|].
    split; [exact P|exact K].
  - rewrite N. destruct (nth_error vars i) as [[k|]|] eqn:E; cbn [option_map];
      [|rewrite app_nil_r; exact G..].
    pose proof (fun own => set_path_ok p k m own) as H. destruct (mem_set_path p k m) as [k' m'].
    apply (good_change i k vars m values gone (Some k') m' _ (fun k => Some (set_device_path p k)) E G).
    intros own O. destruct (H own O) as (O' & L & P & K). split; [exact O'|]. split; [cbn; now rewrite L|].
    split; [exact P|exact K].
  - rewrite N. destruct (nth_error vars i) as [[k|]|] eqn:E; cbn [option_map];
      [|rewrite app_nil_r; exact G..].
    apply (good_change i k vars m values gone None (mem_drop k m) [] (fun _ => None) E G).
    intros own O. destruct (drop_ok k m own O) as (O' & L & K). split; [exact O'|]. split; [reflexivity|].
    split; [rewrite L; reflexivity|]. intros x I. apply K. intros J.
    destruct O as [Nd _]. revert Nd J I. generalize (buffers (mk_kind k)). intros l Nd J I.
    induction l as [|y l IH]; [destruct J|]. cbn [List.app] in Nd. inversion Nd as [|? ? Ny Nl]; subst.
    destruct J as [<-|J]; [apply Ny, in_or_app; now right|now apply IH].
Qed.

Lemma run_good : forall ops s values gone,
  good s values gone ->
  good (fold_left (fun s o => mem_step o s) ops s) (fold_left (fun v o => value_step o v) ops values)
    (gone ++ replaced ops values).
Proof.
  induction ops as [|o ops IH]; intros s values gone G; cbn [fold_left replaced].
  - now rewrite app_nil_r.
  - rewrite app_assoc. apply IH, step_good, G.
Qed.

Lemma mem_run_good ops : good (mem_run ops) (value_run ops) (replaced ops []).
Proof.
  apply (run_good ops ([], []) [] []). unfold good. cbn. split; [|split]; [|reflexivity|constructor].
  split; [constructor|]. intros a. split; [intros []|]. intros [c E]. destruct a; discriminate.
Qed.

(** Keys share no memory: whatever is done with some of them, clones included, each holds the value
    that it would hold as a plain value. *)
Theorem C114_values ops :
  map (option_map (load (snd (mem_run ops)))) (fst (mem_run ops)) = value_run ops.
Proof. apply mem_run_good. Qed.
Print Assumptions C114_values.

(** The memory given back is zero except for the PINs and device paths that were replaced by others
    while their key lived: each is left as it was, once for each time. *)
Theorem C114_leftovers ops :
  Permutation (leftovers (snd (mem_run ops))) (filter (fun b => negb (zeros b)) (replaced ops [])).
Proof. apply mem_run_good. Qed.
Print Assumptions C114_leftovers.

(** So nothing is left if no PIN and no path was replaced. *)
Theorem C114_all_wiped ops :
  replaced ops [] = [] ->
  forall b, In b (snd (mem_run ops)) -> bl_live b = false -> Forall (eq x00) (bl_bytes b).
Proof.
  intros R b I D. pose proof (C114_leftovers ops) as P. rewrite R in P. cbn in P.
  apply Permutation_sym, Permutation_nil in P.
  destruct (zeros (bl_bytes b)) eqn:Z.
  - apply Forall_forall. intros x J. unfold zeros in Z. rewrite forallb_forall in Z. specialize (Z x J).
    symmetry. now apply Byte.byte_dec_bl.
  - exfalso. enough (In (bl_bytes b) (leftovers (snd (mem_run ops)))) as J by (rewrite P in J; destruct J).
    unfold leftovers. apply filter_In. split; [|now rewrite Z]. apply in_map, filter_In. split; [exact I|now rewrite D].
Qed.
Print Assumptions C114_all_wiped.

(** Every buffer is given back when the last key is dropped. *)
Theorem C114_given_back ops :
  Forall (eq None) (value_run ops) -> Forall (fun b => bl_live b = false) (snd (mem_run ops)).
Proof.
  intros D. destruct (mem_run_good ops) as ((_ & O) & V & _).
  assert (E : owned (fst (mem_run ops)) = []).
  { rewrite <- V in D. revert D. generalize (fst (mem_run ops)). intros v D.
    induction v as [|[k|] v IH]; [reflexivity|inversion D; discriminate|]. cbn. apply IH. now inversion D. }
  rewrite E in O. apply Forall_forall. intros [lv c] I. cbn. destruct lv; [|reflexivity].
  destruct (In_nth_error _ _ I) as [a Ea]. exfalso. apply (O a). now exists c.
Qed.
Print Assumptions C114_given_back.

(** Not so in general: a PIN that was set and then set again is left in memory after the key is
    dropped, though nothing of the key is in use. *)
Definition ex_retry : list key_op :=
  [KNew ex_hw; KPin 0 (s2b "1234"); KClone 0; KPin 0 (s2b "5678"); KPath 1 (s2b "/dev/hidraw0"); KDrop 0; KDrop 1].
Theorem C114_all_wiped_always_refuted :
  exists ops pin,
    Forall (eq None) (value_run ops) /\ In (KPin 0 pin) ops /\ In pin (leftovers (snd (mem_run ops))).
Proof.
  exists ex_retry, (s2b "1234"). split; [repeat constructor|]. split; [cbn; auto|].
  vm_compute. auto.
Qed.
Print Assumptions C114_all_wiped_always_refuted.

(** The only thing left there is that PIN; the one that replaced it, and the clone's, are wiped. *)
Example C114_case : leftovers (snd (mem_run ex_retry)) = [s2b "1234"] /\ replaced ex_retry [] = [s2b "1234"].
Proof. vm_compute. auto. Qed.
(** The hypotheses of [C114_all_wiped] and [C114_given_back] can be met. *)
Example C114_case_wiped :
  let ops := [KNew ex_rsa; KClone 0; KPin 1 (s2b "1234"); KDrop 0; KNew ex_hw; KPin 2 (s2b "1"); KDrop 2; KDrop 1] in
  replaced ops [] = [] /\ Forall (eq None) (value_run ops) /\ length (snd (mem_run ops)) = 19.
Proof. vm_compute. repeat constructor. Qed.
(** One key dropped, its clone untouched. *)
Example C114_case_clone :
  value_run [KNew ex_rsa; KClone 0; KDrop 0] = [None; Some ex_rsa].
Proof. reflexivity. Qed.
