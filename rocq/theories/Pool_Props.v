(** Theorems C15-C17 about MaybePool and map_into_pool. *)
From Verif Require Import Pool_Lemmas.
From Verif Require Import Py_Facts.

(** ** C15: pooled map returns every call's result under its key *)

Theorem C15_results {A V} (as_exn : V -> option exn) exn_val (func : A -> res V) recs threads chunks sched r :
  exn_values as_exn exn_val -> threads <> Some 0 -> none_raises func recs ->
  map_into_pool as_exn exn_val func (Again recs) threads false chunks sched = Some r ->
  exists d, r = Ok d /\ wfd d = true /\ dkeys d = first_keys [] (all_keys 0 recs) /\
    forall k, match last_for 0 recs k with
              | Some a => exists v, func a = Ok v /\ dget d k = Some v
              | None => dget d k = None
              end.
Proof. intro HV. exact (pooled_results as_exn exn_val HV func recs threads chunks sched r). Qed.
Print Assumptions C15_results.

(** It returns as soon as every call has ended, in whatever order. *)
Theorem C15_returns {A V} (as_exn : V -> option exn) exn_val (func : A -> res V) recs threads fe chunks sched :
  exn_values as_exn exn_val -> threads <> Some 0 -> none_raises func recs ->
  threads = None \/ covers (submitted func (Again recs) threads chunks) sched ->
  exists d, map_into_pool as_exn exn_val func (Again recs) threads fe chunks sched = Some (Ok d).
Proof. intro HV. exact (pooled_ends as_exn exn_val HV func recs threads fe chunks sched). Qed.
Print Assumptions C15_returns.

(** The same dictionary, in the same order, in every mode. *)
Theorem C15_same {A V} (as_exn : V -> option exn) exn_val (func : A -> res V) recs fe t1 c1 s1 r1 t2 c2 s2 r2 :
  exn_values as_exn exn_val -> t1 <> Some 0 -> t2 <> Some 0 -> none_raises func recs ->
  map_into_pool as_exn exn_val func (Again recs) t1 fe c1 s1 = Some r1 ->
  map_into_pool as_exn exn_val func (Again recs) t2 fe c2 s2 = Some r2 -> r1 = r2.
Proof. intro HV. exact (pooled_same as_exn exn_val HV func recs fe t1 c1 s1 r1 t2 c2 s2 r2). Qed.
Print Assumptions C15_same.

(** Records given as an iterator: no call is made. *)
Theorem C15_iterator {A V} (as_exn : V -> option exn) exn_val (func : A -> res V) recs threads fe chunks sched r :
  exn_values as_exn exn_val -> threads <> Some 0 ->
  map_into_pool as_exn exn_val func (Once recs) threads fe chunks sched = Some r -> r = Ok [].
Proof. intro HV. exact (pooled_iterator as_exn exn_val HV func recs threads fe chunks sched r). Qed.
Print Assumptions C15_iterator.

(** Records used again, in part or in another order, keep the keys they got
    first. *)
Theorem C15_reused_records {A} (recs recs' : list (argrec A)) i j :
  incl recs' (complete i recs) -> all_keys j recs' = map key_of recs'.
Proof. exact (reused_keys recs recs' i j). Qed.
Print Assumptions C15_reused_records.

(** more_itertools.divide: consecutive chunks, one per worker, whose sizes
    differ by at most one. *)
Theorem C15_chunks {B} n (l : list B) : 0 < n ->
  List.concat (divide n l) = l /\ List.length (divide n l) = n /\
  forall c, In c (divide n l) -> List.length c = List.length l / n \/ List.length c = S (List.length l / n).
Proof. exact (divide_spec n l). Qed.
Print Assumptions C15_chunks.

Theorem C15_no_workers {A V} (as_exn : V -> option exn) exn_val (func : A -> res V) recs fe chunks sched :
  map_into_pool as_exn exn_val func recs (Some 0) fe chunks sched = Some (Exc ValueError).
Proof. reflexivity. Qed.
Print Assumptions C15_no_workers.

(** Values: numbers, or exceptions. *)
Inductive ex_val := N_ (n : nat) | E_ (e : exn).
Definition ex_as_exn (v : ex_val) : option exn :=
  match v with E_ e => if is_Exception e then Some e else None | _ => None end.
Example ex_exn_values : exn_values ex_as_exn E_.
Proof.
  constructor.
  - intros [n|e] e'; cbn; [discriminate|]. destruct (is_Exception e) eqn:E; [|discriminate].
    intro H. injection H as <-. split; [reflexivity|exact E].
  - intros e H. cbn. now rewrite H.
Qed.
(** Squares; fails on 0. *)
Definition ex_func (n : nat) : res ex_val := match n with O => Exc ValueError | S _ => Ok (N_ (n * n)) end.
Definition ex_recs : list (argrec nat) :=
  [{| r_key := None; r_args := 5 |}; {| r_key := Some (KStr "a"); r_args := 2 |};
   {| r_key := Some (KInt 0); r_args := 3 |}; {| r_key := None; r_args := 4 |}].
Example C15_ex :
  none_raises ex_func ex_recs /\
  covers (submitted ex_func (Again ex_recs) (Some 3) true) [chunk_key 2; chunk_key 0; chunk_key 1] /\
  map_into_pool ex_as_exn E_ ex_func (Again ex_recs) (Some 3) false true [chunk_key 2; chunk_key 0; chunk_key 1]
    = Some (Ok [(KInt 0, N_ 9); (KStr "a", N_ 4); (KInt 3, N_ 16)]) /\
  map_into_pool ex_as_exn E_ ex_func (Again ex_recs) (Some 2) false false [KInt 3; KInt 0; KStr "a"]
    = Some (Ok [(KInt 0, N_ 9); (KStr "a", N_ 4); (KInt 3, N_ 16)]) /\
  map_into_pool ex_as_exn E_ ex_func (Again ex_recs) (Some 2) false false [KInt 3; KStr "a"] = None /\
  map_into_pool ex_as_exn E_ ex_func (Again ex_recs) None false true [] =
    Some (Ok [(KInt 0, N_ 9); (KStr "a", N_ 4); (KInt 3, N_ 16)]).
Proof.
  split; [|split; [|repeat split]].
  - intros r [<-|[<-|[<-|[<-|[]]]]]; eexists; reflexivity.
  - intros k Hk. exists k. split; [|apply keqb_refl]. vm_compute in Hk. vm_compute. tauto.
Qed.

(** ** C16: one failing call does not lose other calls' results *)

(** Without chunking: every key has its value or exception; with filter_exc
    only the failing ones (and values that are Exception instances) are
    dropped. *)
Theorem C16_unchunked {A V} (as_exn : V -> option exn) exn_val (func : A -> res V) recs threads fe chunks sched r :
  exn_values as_exn exn_val ->
  (chunks = false \/ threads = None) -> threads <> Some 0 -> none_interrupts func recs ->
  map_into_pool as_exn exn_val func (Again recs) threads fe chunks sched = Some r ->
  exists d, r = Ok d /\ wfd d = true /\
    forall k, dget d k =
      match last_for 0 recs k with
      | Some a =>
          match func a with
          | Ok v => if fe && match as_exn v with Some _ => true | None => false end then None else Some v
          | Exc e => if fe then None else Some (exn_val e)
          end
      | None => None
      end.
Proof. intro HV. exact (unchunked_failures as_exn exn_val HV func recs threads fe chunks sched r). Qed.
Print Assumptions C16_unchunked.

Theorem C16_unchunked_returns {A V} (as_exn : V -> option exn) exn_val (func : A -> res V) recs threads fe chunks sched :
  exn_values as_exn exn_val ->
  (chunks = false \/ threads = None) -> threads <> Some 0 -> none_interrupts func recs ->
  threads = None \/ covers (submitted func (Again recs) threads chunks) sched ->
  exists r, map_into_pool as_exn exn_val func (Again recs) threads fe chunks sched = Some r.
Proof. intro HV. exact (map_unchunked_ends as_exn exn_val HV func recs threads fe chunks sched). Qed.
Print Assumptions C16_unchunked_returns.

(** Chunked: exactly this is returned. *)
Theorem C16_chunked {A V} (as_exn : V -> option exn) exn_val (func : A -> res V) recs n fe sched r :
  none_interrupts func recs ->
  map_into_pool as_exn exn_val func (Again recs) (Some (S n)) fe true sched = Some r ->
  r = Ok (filter_out as_exn fe (chunked_outcome exn_val func (chunks_of (S n) recs))).
Proof. exact (chunked_failures as_exn exn_val func recs n fe sched r). Qed.
Print Assumptions C16_chunked.

(** A result is kept iff no call of its chunk failed... *)
Theorem C16_chunked_kept {A V} (exn_val : exn -> V) (func : A -> res V) recs n i c r :
  0 < n -> good_keys recs -> nth_error (divide n (complete 0 recs)) i = Some c -> In r c ->
  dget (chunked_outcome exn_val func (chunks_of n recs)) (key_of r) =
  match first_failure func c with
  | None => Some (as_value exn_val (func (r_args r)))
  | Some _ => None
  end.
Proof. exact (chunked_kept exn_val func recs n i c r). Qed.
Print Assumptions C16_chunked_kept.

(** ... and otherwise the chunk leaves its first exception under "chunk_i". *)
Theorem C16_chunked_exception {A V} (exn_val : exn -> V) (func : A -> res V) recs n i c e :
  0 < n -> good_keys recs -> nth_error (divide n (complete 0 recs)) i = Some c ->
  first_failure func c = Some e ->
  dget (chunked_outcome exn_val func (chunks_of n recs)) (chunk_key i) = Some (exn_val e).
Proof. exact (chunked_exception exn_val func recs n i c e). Qed.
Print Assumptions C16_chunked_exception.

(** So the other results of a chunk are lost. *)
Theorem C16_chunked_refuted :
  exists (func : nat -> res ex_val) recs sched d,
    none_interrupts func recs /\ covers (submitted func (Again recs) (Some 1) true) sched /\
    map_into_pool ex_as_exn E_ func (Again recs) (Some 1) false true sched = Some (Ok d) /\
    last_for 0 recs (KInt 0) = Some 5 /\ func 5 = Ok (N_ 25) /\ dget d (KInt 0) = None.
Proof.
  exists ex_func, [{| r_key := None; r_args := 5 |}; {| r_key := None; r_args := 0 |}], [chunk_key 0],
    [(KStr "chunk_0", E_ ValueError)].
  split; [|split; [|repeat split]].
  - intros r [<-|[<-|[]]]; vm_compute; auto.
  - intros k Hk. exists k. split; [|apply keqb_refl]. vm_compute in Hk. vm_compute. tauto.
Qed.
Print Assumptions C16_chunked_refuted.

(** Something that is not an Exception: raised without a pool; with a pool
    the map never returns. *)
Theorem C16_interrupt_alone {A V} (as_exn : V -> option exn) exn_val (func : A -> res V) recs fe chunks sched e :
  first_interrupt func recs = Some e ->
  map_into_pool as_exn exn_val func (Again recs) None fe chunks sched = Some (Exc e).
Proof. exact (alone_interrupted as_exn exn_val func recs fe chunks sched e). Qed.
Print Assumptions C16_interrupt_alone.
Theorem C16_interrupt_pooled {A V} (as_exn : V -> option exn) exn_val (func : A -> res V) recs n fe sched :
  first_interrupt func recs <> None ->
  map_into_pool as_exn exn_val func (Again recs) (Some (S n)) fe false sched = None.
Proof. exact (pooled_interrupted as_exn exn_val func recs n fe sched). Qed.
Print Assumptions C16_interrupt_pooled.
Theorem C16_interrupt_chunked {A V} (as_exn : V -> option exn) exn_val (func : A -> res V) recs n fe sched i c e :
  In (i, c) (chunks_of (S n) recs) -> first_failure func c = Some e -> is_Exception e = false ->
  map_into_pool as_exn exn_val func (Again recs) (Some (S n)) fe true sched = None.
Proof. exact (chunked_interrupted as_exn exn_val func recs n fe sched i c e). Qed.
Print Assumptions C16_interrupt_chunked.

Definition ex_fail : list (argrec nat) :=
  [{| r_key := None; r_args := 5 |}; {| r_key := None; r_args := 2 |};
   {| r_key := None; r_args := 0 |}; {| r_key := Some (KStr "x"); r_args := 4 |}].
Example C16_ex :
  none_interrupts ex_func ex_fail /\ good_keys ex_fail /\
  map_into_pool ex_as_exn E_ ex_func (Again ex_fail) (Some 2) false false [KInt 2; KInt 1; KInt 0; KStr "x"]
    = Some (Ok [(KInt 0, N_ 25); (KInt 1, N_ 4); (KInt 2, E_ ValueError); (KStr "x", N_ 16)]) /\
  map_into_pool ex_as_exn E_ ex_func (Again ex_fail) None true false []
    = Some (Ok [(KInt 0, N_ 25); (KInt 1, N_ 4); (KStr "x", N_ 16)]) /\
  map_into_pool ex_as_exn E_ ex_func (Again ex_fail) (Some 2) false true [chunk_key 1; chunk_key 0]
    = Some (Ok [(KInt 0, N_ 25); (KInt 1, N_ 4); (KStr "chunk_1", E_ ValueError)]).
Proof.
  split; [|split; [|repeat split]].
  - intros r [<-|[<-|[<-|[<-|[]]]]]; vm_compute; auto.
  - split.
    + intros [|[|[|[|i]]]] [|[|[|[|j]]]] a b; cbn; try discriminate; try reflexivity;
        intros H1 H2 H3; try (destruct i; discriminate); try (destruct j; discriminate);
        injection H1 as <-; injection H2 as <-; vm_compute in H3; discriminate.
    + intros a i [<-|[<-|[<-|[<-|[]]]]]; reflexivity.
Qed.

(** ** C17: pool progress counters are consistent *)

Theorem C17_consistent {A V} (func : A -> res V) recs p chunks rs0 cs sched rs :
  pool_map func recs p chunks = Ok rs0 -> rs = work cs sched rs0 ->
  (n_ready rs + n_running rs = n_results rs)%Z /\
  (0 <= n_ready rs)%Z /\ (0 <= n_running rs)%Z /\
  (pool_ready rs = true <-> n_running rs = 0%Z) /\
  (pool_ready rs = true <-> forall k b, dget (results_ready rs) k = Some b -> b = true).
Proof.
  intros H ->. split; [unfold n_running; ring|]. split; [unfold n_ready; apply Zle_0_nat|].
  split; [rewrite running_counts; apply Zle_0_nat|]. split; [apply ready_none_running|].
  apply results_ready_all, work_wf. eapply pool_map_wf, H.
Qed.
Print Assumptions C17_consistent.

(** As calls end: no result goes back to pending, and the number of results
    stays. *)
Theorem C17_monotone {V} (cs : @calls V) sched rs :
  n_results (work cs sched rs) = n_results rs /\ (n_ready rs <= n_ready (work cs sched rs))%Z /\
  (n_running (work cs sched rs) <= n_running rs)%Z.
Proof. exact (work_counts cs sched rs). Qed.
Print Assumptions C17_monotone.

(** ready() and the counters read one result after another, while calls go on
    ending: every flag read lies between those at the start and at the end. *)
Theorem C17_reads_between {V} (cs : @calls V) gaps rs i :
  Forall2 (fun a b => a = true -> b = true)
    (map (fun j => nth j (map snd (flags rs)) false) (seq i (List.length gaps))) (slow_flags cs gaps rs i) /\
  Forall2 (fun a b => a = true -> b = true)
    (slow_flags cs gaps rs i)
    (map (fun j => nth j (map snd (flags (work cs (List.concat gaps) rs))) false) (seq i (List.length gaps))).
Proof. exact (slow_between cs gaps rs i). Qed.
Print Assumptions C17_reads_between.

(** So ready() never returns True before everything is ready, nor False when
    everything was. *)
Theorem C17_ready_while_working {V} (cs : @calls V) gaps rs :
  List.length gaps = List.length (flags rs) ->
  (pool_ready rs = true -> forallb (fun b => b) (slow_flags cs gaps rs 0) = true) /\
  (forallb (fun b => b) (slow_flags cs gaps rs 0) = true -> pool_ready (work cs (List.concat gaps) rs) = true).
Proof. exact (slow_ready cs gaps rs). Qed.
Print Assumptions C17_ready_while_working.

Theorem C17_terminate {V} (rs : @results V) :
  n_results (terminate rs) = 0%Z /\ n_ready (terminate rs) = 0%Z /\ results_ready (terminate rs) = [] /\
  pool_ready (terminate rs) = true.
Proof. repeat split. Qed.
Print Assumptions C17_terminate.

Example C17_ex :
  exists rs0, pool_map ex_func (Again ex_recs) (Some 2) false = Ok rs0 /\
  let cs := submitted ex_func (Again ex_recs) (Some 2) false in
  n_results rs0 = 3%Z /\ n_ready rs0 = 0%Z /\
  n_ready (work cs [KStr "a"] rs0) = 1%Z /\ n_running (work cs [KStr "a"] rs0) = 2%Z /\
  results_ready (work cs [KStr "a"] rs0) = [(KInt 0, false); (KStr "a", true); (KInt 3, false)] /\
  slow_flags cs [[KStr "a"]; [KInt 0]; [KInt 3]] rs0 0 = [false; true; true] /\
  pool_ready (work cs [KStr "a"; KInt 0; KInt 3] rs0) = true.
Proof. eexists. split; [reflexivity|]. repeat split. Qed.
