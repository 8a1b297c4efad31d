(** Property theorems: handles and writers in use at the same time. *)
From Verif Require Import Base Layout Block Bam Format Petscii GeosTypes DirEntry Header World Chain Directory Writer Rel GeosFile File Validate
  Spec SpecChain SpecFiles SpecKinds Session SpecDisk SpecTurns Overlap Demo DemoOverlap.

(** C81: a writer that is opened on a file at any point of a history, used in
    turns with any calls on other files and other writers, and closed: if every
    write has answered its count, the file is what it was with all that was
    written after it, in order. *)
Theorem C81_writer : forall t a s h i f ts a' rs,
  let k := length (as_writers a) in
  reached t a s -> file_of a h = Some (i, f) ->
  arun t a (OWriter h :: map (call_of k) ts ++ [OClose k]) = Some (a', rs) ->
  (forall a1 r1, astep t a (OWriter h) = Some (a1, r1) -> elsewhere t a1 k i ts) ->
  (forall j buf, ts !! j = Some (Step (Some buf)) -> rs !! S j = Some (ACount (length buf))) ->
  exists s' g, calls s (OWriter h :: map (call_of k) ts ++ [OClose k]) = (s', rs) /\ reached t a' s'
    /\ as_slots a' !! i = Some (Some g) /\ shows (s_world s') g
    /\ a_name g = a_name f /\ a_attr g = a_attr f /\ a_data g = a_data f ++ written ts.
Proof. exact writer_undisturbed. Qed.
Print Assumptions C81_writer.

(** Another writer is open, is written to and closed meanwhile, and a file is created. *)
Example C81_example : reached D64 demo_a demo_s /\ file_of demo_a 0 = Some (0, file_a) /\ length (as_writers demo_a) = 2
  /\ (exists a1 r1, astep D64 demo_a (OWriter 0) = Some (a1, r1) /\ elsewhere D64 a1 2 0 write_turns)
  /\ option_map snd (arun D64 demo_a (OWriter 0 :: map (call_of 2) write_turns ++ [OClose 2]))
     = Some [AIndex 2; ACount 200; ACount 2; ADone; ADone; AIndex 3; ACount 200; ADone]
  /\ written write_turns = repeat 9 200 ++ repeat 8 200.
Proof.
  split; [exact demo_reached|]. split; [reflexivity|]. split; [vm_compute; reflexivity|].
  split; [eexists _, _; split; [vm_compute; reflexivity|vm_compute; repeat split; discriminate]|].
  split; [vm_compute; reflexivity|reflexivity].
Qed.

(** C82: two writers on the same file do not keep all that is written: there is
    room for everything, all calls succeed, and the file lacks what the first
    writer wrote. *)
Theorem C82_two_writers_refuted : ~ (forall t a s h i f n b1 b2,
  reached t a s -> file_of a h = Some (i, f) -> writer_on a i = false ->
  w_blocks_free (s_world s) = Ok n -> length (a_data f ++ b1 ++ b2) <= 254 * (a_blocks f + n) ->
  let k := length (s_writers s) in
  forall s' rs, calls s [OWriter h; OWriter h; OWrite k b1; OWrite (S k) b2; OClose k; OClose (S k); ORead h [length (a_data f ++ b1 ++ b2)]] = (s', rs) ->
  last rs = Some (AReads [a_data f ++ b1 ++ b2]) \/ last rs = Some (AReads [a_data f ++ b2 ++ b1])).
Proof. exact two_writers. Qed.
Print Assumptions C82_two_writers_refuted.

(** C83: deleting through a handle whose file has been deleted can remove
    another file. *)
Theorem C83_handle_refuted : ~ (forall t a s h name,
  reached t a s -> as_handles a !! h = Some None -> slot_named a name <> None ->
  forall s' r, call s (ODelete h) = (s', r) ->
  exists es e, w_directory (s_world s') = Ok es /\ In e es /\ de_name e = name).
Proof. exact stale_deletes. Qed.
Print Assumptions C83_handle_refuted.

(** A writer whose file has been deleted can write to a file created since. *)
Theorem C83_writer_refuted : ~ (forall t a s h i f k x name s1 h',
  reached t a s -> file_of a h = Some (i, f) -> as_writers a !! k = Some (Some x) -> aw_slot x = i ->
  calls s [ODelete h; OCreate name PRG] = (s1, [ADone; AIndex h']) ->
  forall buf s2 rs, calls s1 [OWrite k buf; OClose k; ORead h' [length buf]] = (s2, rs) ->
  last rs = Some (AReads [[]])).
Proof. exact stale_writes. Qed.
Print Assumptions C83_writer_refuted.

(** What holds of C83: deleting any number of times in a row through the same
    handle is the same, to all later calls, as deleting once. The table knows the
    answers after one deletion; missing is what happens when other calls come in
    between, where the claim is false. *)
Theorem C83_again_partial : forall t a s h i f a' r n,
  reached t a s -> file_of a h = Some (i, f) -> astep t a (ODelete h) = Some (a', r) ->
  exists s', calls s (repeat (ODelete h) (S n)) = (s', repeat ADone (S n))
    /\ forall os a2 rs, arun t a' os = Some (a2, rs) -> snd (calls s' os) = rs.
Proof. exact delete_again. Qed.
Print Assumptions C83_again_partial.

Example C83_again_example : reached D64 demo_a demo_s /\ file_of demo_a 0 = Some (0, file_a)
  /\ exists a' r, astep D64 demo_a (ODelete 0) = Some (a', r) /\ slot_named a' (a_name file_a) = None
     /\ exists a2 h, arun D64 a' [OCreate (a_name file_a) PRG; OOpen (a_name file_a); ORead h [9]] = Some (a2, [AIndex h; AIndex (S h); AReads [[]]]).
Proof.
  split; [exact demo_reached|]. split; [reflexivity|].
  eexists _, _. split; [vm_compute; reflexivity|]. split; [vm_compute; reflexivity|].
  eexists _, 3. vm_compute. reflexivity.
Qed.

(** C84: calls that all succeed can leave a disk that does not validate. *)
Theorem C84_successful_calls_refuted : ~ (forall t a s os s' rs, reached t a s -> calls s os = (s', rs) ->
  Forall (fun r => match r with AError _ | ABroken => False | _ => True end) rs -> validate (s_world s') = Ok []).
Proof. exact lost_sector. Qed.
Print Assumptions C84_successful_calls_refuted.
