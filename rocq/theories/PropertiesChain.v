(** Properties of sector chains: traversal, reading, and looking for the end. *)
From Verif Require Import Base ListFacts Layout Block Chain Writer Spec SpecChain GeomFacts FlatProofs DevFacts
  ChainProofs ChainExamples.

(** C05: following the chain from [start] to its end. *)
Theorem C05_chain_traversal : forall t d start,
  dev_shape t d ->
  exists ss r, chain_walk d start = (ss, r)
    /\ let ls := map cs_location ss in
       NoDup ls /\ length ls <= sector_count (d_geom d)
       /\ Forall (on_disk t (g_tracks (d_geom d))) ls
       /\ path d ls /\ (head ls = Some start \/ ls = [])
       /\ Forall (fun s => exists b, sector d (cs_location s) = Ok b /\ cs_data s = used_part b) ss
       /\ ((r = Ok tt /\ exists l e, last ls = Some l /\ ends d l e)
           \/ (r = Err EChainLoop /\ exists l, reached d start ls l /\ In l ls)
           \/ (r = Err EInvalidLocation
               /\ exists l, reached d start ls l /\ ~ on_disk t (g_tracks (d_geom d)) l)
           \/ (r = Err EInvalidChainLink /\ exists l b, reached d start ls l /\ ~ In l ls
               /\ sector d l = Ok b /\ b !!! 0 = 0 /\ b !!! 1 = 0)).
Proof. exact chain_traversal. Qed.
Print Assumptions C05_chain_traversal.

(** After its end or an error the iterator has nothing more to give. *)
Theorem C05_chain_fused : forall d it,
  match chain_next d it with
  | (it', None) | (it', Some (Err _)) => chain_next d it' = (it', None)
  | _ => True
  end.
Proof. exact chain_fused'. Qed.
Print Assumptions C05_chain_fused.

Example C05_example :
  dev_shape D64 example_dev
  /\ snd (chain_walk example_dev (17, 0)) = Ok tt
  /\ map cs_location (fst (chain_walk example_dev (17, 0))) = [(17, 0); (1, 5)]
  /\ snd (chain_walk example_dev (2, 0)) = Err EChainLoop
  /\ snd (chain_walk example_dev (3, 3)) = Err EInvalidChainLink
  /\ snd (chain_walk example_dev (36, 0)) = Err EInvalidLocation.
Proof. split; [exact example_shape|]. split; [|split; [|split; [|split]]]; vm_compute; reflexivity. Qed.

(** C06: reading with buffers of any sizes. *)
Theorem C06_reading : forall t d start ls ns,
  dev_shape t d -> sound_chain d start ls ->
  run_reads d (reader_new start) ns = map Ok (pieces (data_of d ls) ns)
  /\ read_all d start = Ok (data_of d ls).
Proof. exact reads_sound. Qed.
Print Assumptions C06_reading.

Example C06_example :
  sound_chain example_dev (17, 0) [(17, 0); (1, 5)]
  /\ run_reads example_dev (reader_new (17, 0)) [250; 0; 6; 10; 3]
     = map Ok [repeat 66 250; []; [66; 66; 66; 66; 7; 8]; [9]; []].
Proof. split; [exact example_sound|]. vm_compute. reflexivity. Qed.

(** Reading any chain, sound or not: the data before the fault is delivered by
    reads that do not go past it; the read that does fails. *)
Theorem C06_reading_any : forall t d start ns ss e,
  dev_shape t d -> chain_walk d start = (ss, e) ->
  run_reads d (reader_new start) ns
  = reads_spec (concat (map (fun s => drop 2 (cs_data s)) ss)) e ns.
Proof. exact reads_any. Qed.
Print Assumptions C06_reading_any.

(** C41: a writer is opened, or an error is returned, unless the chain loops. *)
Theorem C41_open_writer_partial : forall t d start,
  dev_shape t d ->
  (snd (chain_walk d start) <> Err EChainLoop ->
     (exists x, forall fuel, chain_fuel d <= fuel -> find_tail_fuel fuel d start = Ok x)
     \/ (exists e, forall fuel, chain_fuel d <= fuel -> find_tail_fuel fuel d start = Err e))
  /\ (snd (chain_walk d start) = Err EChainLoop ->
     forall fuel, find_tail_fuel fuel d start = NoFuel).
Proof. exact find_tail_terminates. Qed.
Print Assumptions C41_open_writer_partial.

Theorem C41_open_writer_refuted :
  exists t d start, dev_shape t d /\ forall fuel, find_tail_fuel fuel d start = NoFuel.
Proof. exact example_cycle. Qed.
Print Assumptions C41_open_writer_refuted.

Example C41_example :
  exists b, find_tail_fuel 10 example_dev (17, 0) = Ok ((1, 5), b) /\ take 3 b = [0; 4; 7].
Proof. eexists. split; vm_compute; reflexivity. Qed.
