(** C31 again: exactly which histories an encoder and a decoder get through together, as far as the
    position of a repeated field in the dynamic table decides it. *)
From Coq Require Import Ascii String NArith ZArith Lia Bool List.
From Verif Require Import Base S_Huffman S_Http1 S_Map M_Hpack S_Hpack S_HpackApi P_HpackSync S_Near P_Near.
Import ListNotations.
Local Open Scope N_scope.

(** The table of the sender after every history is the one the rules of [after_field] give. *)
Theorem C31_sender_table : forall m evs,
  Forall sendable (concat (sent evs)) ->
  (forall f g, In f (concat (sent evs)) -> In g (concat (sent evs)) -> clash_free (fst f) (fst g)) ->
  exists t, sender (hi_with_size m) evs = Ok t /\ (hi_get_max t, hi_to_vec t) = after_events m evs.
Proof.
  intros m evs S C. exact (sender_events _ evs (conj S C) (incl_refl _) _ (fresh_inv m) (fun x Hx => match Hx with end)).
Qed.
Print Assumptions C31_sender_table.

(** Every history in which each field, when it is sent, is new, has a static name or is among the newest 65
    entries arrives, and keeps the tables alike: no bound on the number of fields, blocks or entries. *)
Theorem C31_sync_near_partial : forall m evs,
  Forall sendable (concat (sent evs)) ->
  (forall f g, In f (concat (sent evs)) -> In g (concat (sent evs)) -> clash_free (fst f) (fst g)) ->
  all_near m evs ->
  exists te td, exchange (hi_with_size m) (hi_with_size m) evs = Ok (te, td, map (map lower_field) (sent evs)) /\
    hi_to_vec td = map lower_field (hi_to_vec te) /\ hi_get_size td = hi_get_size te /\ hi_get_max td = hi_get_max te /\
    (hi_get_max te, hi_to_vec te) = after_events m evs.
Proof. intros m evs S C. apply sync_near. split; assumption. Qed.
Print Assumptions C31_sync_near_partial.

(** The condition is exact: after such a history a block ending in [f] arrives if and only if [f] is near. *)
Theorem C31_near_exact : forall m evs fs f,
  Forall sendable (concat (sent evs) ++ fs ++ [f]) ->
  (forall a b, In a (concat (sent evs) ++ fs ++ [f]) -> In b (concat (sent evs) ++ fs ++ [f]) -> clash_free (fst a) (fst b)) ->
  all_near m (evs ++ [EvBlock fs]) ->
  ((exists te td, exchange (hi_with_size m) (hi_with_size m) (evs ++ [EvBlock (fs ++ [f])]) =
      Ok (te, td, map (map lower_field) (sent evs ++ [fs ++ [f]]))) <->
   near (snd (after_events m (evs ++ [EvBlock fs]))) f).
Proof. intros m evs fs f S C. apply near_exact. split; assumption. Qed.
Print Assumptions C31_near_exact.

(** At most 65 different fields, each of them an entry of the static table or with a name that is not in it,
    arrive in any order and any number of blocks, with any changes of the maximum. *)
Theorem C31_sync_own_names_partial : forall m evs pool,
  Forall sendable (concat (sent evs)) ->
  (forall f g, In f (concat (sent evs)) -> In g (concat (sent evs)) -> clash_free (fst f) (fst g)) ->
  Forall (fun f => static_entry f = true \/ static_name f = false) (concat (sent evs)) ->
  (length pool <= 65)%nat ->
  (forall f, In f (concat (sent evs)) -> static_entry f = false -> In (lower_field f) (map lower_field pool)) ->
  exists te td, exchange (hi_with_size m) (hi_with_size m) evs = Ok (te, td, map (map lower_field) (sent evs)).
Proof.
  intros m evs pool S C O L IP.
  destruct (sync_near m evs (conj S C)) as (te & td & E & _).
  - apply (small_events pool evs L O IP). split; [constructor|intros x []].
  - exists te, td. exact E.
Qed.
Print Assumptions C31_sync_own_names_partial.

(** Refuted in general: the same block, sent 66 times at the default maximum.  ":authority" is a static name, so
    the field is added to the table every time, and the other field moves one place each time. *)
Definition same_block : list hfield := [(str "x", str "1"); (str ":authority", str "a")].
Theorem C31_same_block_refuted :
  Forall sendable same_block /\ Forall (fun f => Forall h2_char (fst f)) same_block /\
  (exists te td, exchange hi_new hi_new (repeat (EvBlock same_block) 65) = Ok (te, td, repeat same_block 65)) /\
  forall te td, exchange hi_new hi_new (repeat (EvBlock same_block) 66) <> Ok (te, td, repeat same_block 66).
Proof.
  split; [apply sendableb_ok; vm_compute; reflexivity|]. split; [apply h2_charb_ok; vm_compute; reflexivity|].
  split; [eexists; eexists; vm_compute; reflexivity|]. intros te td H. vm_compute in H. discriminate H.
Qed.
Print Assumptions C31_same_block_refuted.

(** A request with a field of its own, all of whose other fields are static entries, sent three times. *)
Definition plain_block : list hfield :=
  [(str ":method", str "GET"); (str ":scheme", str "https"); (str ":path", str "/"); (str "x-request", str "1")].
Example C31_own_names_nonvacuous :
  Forall sendable (concat (sent (repeat (EvBlock plain_block) 3))) /\
  Forall (fun f => static_entry f = true \/ static_name f = false) (concat (sent (repeat (EvBlock plain_block) 3))) /\
  (forall f, In f (concat (sent (repeat (EvBlock plain_block) 3))) -> static_entry f = false ->
     In (lower_field f) (map lower_field [(str "x-request", str "1")])).
Proof.
  split; [apply sendableb_ok; vm_compute; reflexivity|]. split.
  - cbn [repeat sent concat app plain_block]. repeat constructor; first [left; vm_compute; reflexivity|right; vm_compute; reflexivity].
  - cbn [repeat sent concat app plain_block]. intros f Hf NS.
    repeat (destruct Hf as [<-|Hf]; [first [discriminate NS|left; reflexivity]|]). destruct Hf.
Qed.
Example C31_after_events : after_events 100 [EvBlock [(str "x", str "1"); (str ":authority", str "a")]; EvBlock [(str "x", str "1"); (str ":authority", str "a")]] =
  (100, [(str ":authority", str "a"); (str ":authority", str "a")]).
Proof. vm_compute. reflexivity. Qed.
Example C31_far : exists f, ~ near (map (fun i => ([N.of_nat i], [])) (seq 0 66)) f.
Proof.
  exists ([65], []). intros [A|[A|(e & He & A)]].
  - vm_compute in A. discriminate A.
  - specialize (A ([65], [])). assert (X : In ([65], []) (map (fun i => ([N.of_nat i], @nil N)) (seq 0 66))) by (vm_compute; tauto).
    specialize (A X). discriminate A.
  - vm_compute in He. repeat (destruct He as [<-|He]; [vm_compute in A; discriminate A|]). destruct He.
Qed.
