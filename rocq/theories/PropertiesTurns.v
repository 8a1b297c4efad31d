(** Property theorems: reading a file or listing the directory step by step,
    with other calls in between. *)
From Verif Require Import Base Layout Block Bam Format Petscii GeosTypes DirEntry Header World Chain Directory Writer Rel GeosFile File Validate DirIter
  Spec SpecChain SpecFiles SpecGeos SpecKinds Session SpecDisk SpecTurns TurnsRead TurnsList TurnsTable TurnsGeos TurnsGrow Demo DemoMixed DemoBorder DemoTurns.

(** C78: a reader begun at any point of a history delivers its file, piece by
    piece, whatever the calls in between do to other files. *)
Theorem C78_reader : forall t a s h i f ts a',
  reached t a s -> file_of a h = Some (i, f) -> after t a ts = Some a' -> untouched t a i ts ->
  exists x r, s_handles s !! h = Some x /\ file_reader x = Ok r
    /\ fst (reading s r ts) = map Ok (pieces (a_data f) (steps ts)).
Proof. exact reader_undisturbed. Qed.
Print Assumptions C78_reader.

(** Between the reads another file is written, closed and deleted, and a third
    is created, which may take the sectors that came free. *)
Example C78_example : reached D64 demo_a demo_s /\ file_of demo_a 0 = Some (0, file_a)
  /\ is_Some (after D64 demo_a read_turns) /\ untouched D64 demo_a 0 read_turns
  /\ pieces (a_data file_a) (steps read_turns) = [repeat 7 100; repeat 7 100; repeat 7 100; []].
Proof.
  split; [exact demo_reached|]. split; [reflexivity|]. split; [vm_compute; eexists; reflexivity|].
  split; [vm_compute; repeat split; discriminate|vm_compute; reflexivity].
Qed.

(** The same for the data of a sequential GEOS file, which its reader delivers. *)
Theorem C78_stream : forall t a s h i f data ts a',
  reached t a s -> held a h = Some (i, f) -> a_kind f = KStream data -> after t a ts = Some a' -> untouched t a i ts ->
  exists x r, s_handles s !! h = Some x /\ file_reader x = Ok r
    /\ fst (reading s r ts) = map Ok (pieces data (steps ts)).
Proof. exact stream_undisturbed. Qed.
Print Assumptions C78_stream.

(** The reader of the Convert stream of a GEOS file answers as it would with no
    call in between. *)
Theorem C78_convert : forall t a s h i f x q r ts a',
  reached t a s -> held a h = Some (i, f) -> s_handles s !! h = Some x -> x = FGEOSSequential q \/ x = FGEOSVLIR q ->
  geos_reader_new (gf_entry q) = Ok r -> after t a ts = Some a' -> untouched t a i ts ->
  fst (converting s r ts) = geos_reads (w_dev (s_world s)) r (steps ts).
Proof. exact convert_undisturbed. Qed.
Print Assumptions C78_convert.

(** A sequential and a VLIR file on the image [mixed_dev]. *)
Example C78_geos_example : reached D64 opened_a opened_s
  /\ held opened_a 0 = Some (2, mixed_S) /\ a_kind mixed_S = KStream [7; 8; 9] /\ held opened_a 1 = Some (1, mixed_V)
  /\ is_Some (after D64 opened_a (geos_turns 2)) /\ untouched D64 opened_a 2 (geos_turns 2)
  /\ is_Some (after D64 opened_a (geos_turns 1000)) /\ untouched D64 opened_a 1 (geos_turns 1000)
  /\ pieces [7; 8; 9] (steps (geos_turns 2)) = [[7; 8]; [9]; []; []]
  /\ exists q r, s_handles opened_s !! 1 = Some (FGEOSVLIR q) /\ geos_reader_new (gf_entry q) = Ok r.
Proof.
  split; [exact opened_reached|]. split; [vm_compute; reflexivity|]. split; [reflexivity|]. split; [vm_compute; reflexivity|].
  split; [vm_compute; eexists; reflexivity|]. split; [vm_compute; repeat split; discriminate|].
  split; [vm_compute; eexists; reflexivity|]. split; [vm_compute; repeat split; discriminate|]. split; [reflexivity|].
  eexists _, _. split; [vm_compute; reflexivity|vm_compute; reflexivity].
Qed.

(** C79: a directory iterator made for any image, whatever happens to the image
    between its steps, answers entries, errors or the end; it answers at most so
    many entries and errors; and after the end it answers the end. *)
Theorem C79_ends : forall t w it ds,
  dev_shape t (w_dev w) -> dir_iter_new w = Ok it ->
  Forall (fun d => dev_shape t d /\ d_geom d = d_geom (w_dev w)) ds ->
  Forall (fun x => x = None \/ (exists e, x = Some (Ok e)) \/ exists k, x = Some (Err k)) (answers ds it)
  /\ length (List.filter (fun x => match x with Some _ => true | None => false end) (answers ds it)) <= 8 * (sector_count (d_geom (w_dev w)) + 1) + 1
  /\ forall i j, answers ds it !! i = Some None -> i <= j < length ds -> answers ds it !! j = Some None.
Proof. exact iterator_ends. Qed.
Print Assumptions C79_ends.

(** On an image that stays as it is, it answers what the directory call answers. *)
Theorem C79_lists : forall t w it es r,
  dev_shape t (w_dev w) -> dir_iter_new w = Ok it -> w_iter w = (es, r) ->
  answers (repeat (w_dev w) (S (length es))) it
  = map (fun e => Some (Ok e)) es ++ [match r with Ok _ => None | Err e => Some (Err e) | Panic => Some Panic | NoFuel => Some NoFuel end].
Proof. exact iterator_lists. Qed.
Print Assumptions C79_lists.

(** At any point of a history, with other calls between its steps: it never
    fails, it answers entries the directory had at some moment since, and once it
    has come to the end it has answered each file that no call was about exactly
    once, with its name, type and size. *)
Theorem C79_undisturbed : forall t a s ts a',
  reached t a s -> after t a ts = Some a' ->
  exists it, dir_iter_new (s_world s) = Ok it
    /\ Forall (fun x => match x with
                        | None => True
                        | Some (Ok e) => exists s1 es, In s1 (moments s ts) /\ w_directory (s_world s1) = Ok es /\ In e es
                        | _ => False
                        end) (fst (iterating s it ts))
    /\ forall i f, as_slots a !! i = Some (Some f) -> untouched t a i ts ->
         (forall e, In (Some (Ok e)) (fst (iterating s it ts)) -> de_name e = a_name f -> entry_line e = (a_name f, a_attr f, a_blocks f))
         /\ length (List.filter (names (a_name f)) (fst (iterating s it ts))) <= 1
         /\ (last (fst (iterating s it ts)) = Some None -> length (List.filter (names (a_name f)) (fst (iterating s it ts))) = 1).
Proof. exact iterator_undisturbed. Qed.
Print Assumptions C79_undisturbed.

(** On the GEOS disk the first file is deleted once it has been listed and
    another is created; the file in the border sector is listed all the same. *)
Example C79_example : reached D64 geos_a (start D64 geos_disk) /\ is_Some (after D64 geos_a list_turns)
  /\ as_slots geos_a !! 0 = Some (Some geos_B) /\ untouched D64 geos_a 0 list_turns
  /\ exists it, dir_iter_new (open_world D64 geos_disk) = Ok it
       /\ map (option_map (fun x => match x with Ok e => de_name e | _ => [] end)) (fst (iterating (start D64 geos_disk) it list_turns))
          = [Some [65]; Some [66]; None].
Proof.
  split; [exact geos_reached|]. split; [vm_compute; eexists; reflexivity|]. split; [reflexivity|].
  split; [vm_compute; repeat split; discriminate|].
  eexists. split; [vm_compute; reflexivity|]. vm_compute. reflexivity.
Qed.

(** C80: a reader of a file that is appended to and renamed between its reads,
    but not deleted, never fails.  What it delivers is the beginning of what the
    file holds in the end; a read that comes short is the last that delivers
    anything, and by then at least all that the file held when the reader was
    made has been delivered. *)
Theorem C80_growing : forall t a s h i f ts a',
  reached t a s -> file_of a h = Some (i, f) -> after t a ts = Some a' -> survives t a i ts ->
  exists x r g xs, s_handles s !! h = Some x /\ file_reader x = Ok r /\ as_slots a' !! i = Some (Some g)
    /\ fst (reading s r ts) = map Ok xs
    /\ Forall2 (fun n x => length x <= n) (steps ts) xs
    /\ (exists y, a_data g = concat xs ++ y)
    /\ forall j n x, steps ts !! j = Some n -> xs !! j = Some x -> length x < n ->
         (exists y, concat xs = a_data f ++ y) /\ forall j' x', j < j' -> xs !! j' = Some x' -> x' = [].
Proof. exact reader_growing. Qed.
Print Assumptions C80_growing.

(** The file of 300 bytes has 400 more appended while it is read. *)
Example C80_example : reached D64 demo_a demo_s /\ file_of demo_a 0 = Some (0, file_a) /\ survives D64 demo_a 0 grow_turns
  /\ (exists a' g, after D64 demo_a grow_turns = Some a' /\ as_slots a' !! 0 = Some (Some g) /\ a_data g = repeat 7 300 ++ repeat 9 400)
  /\ exists x r, s_handles demo_s !! 0 = Some x /\ file_reader x = Ok r
       /\ fst (reading demo_s r grow_turns) = [Ok (repeat 7 100); Ok (repeat 7 200 ++ repeat 9 100); Ok (repeat 9 200); Ok (repeat 9 100); Ok []].
Proof.
  split; [exact demo_reached|]. split; [reflexivity|]. split; [vm_compute; repeat split|].
  split; [eexists _, _; split; [vm_compute; reflexivity|split; vm_compute; reflexivity]|].
  eexists _, _. split; [vm_compute; reflexivity|]. split; [vm_compute; reflexivity|]. vm_compute. reflexivity.
Qed.

(** A reader that starts at any sector of any image, whatever happens to the
    image between its reads, answers bytes or errors, at most as many bytes as
    asked for each time and as the disk can hold in all, and nothing after an
    error or a read that came short. *)
Theorem C80_ends : forall t g start ds,
  Forall (fun x => dev_shape t (fst x) /\ d_geom (fst x) = g) ds ->
  Forall2 (fun d x => (exists bs, x = Ok bs /\ length bs <= snd d) \/ exists e, x = Err e) ds (readings ds (reader_new start))
  /\ length (concat (map bytes_of (readings ds (reader_new start)))) <= 254 * sector_count g
  /\ forall i j d x y, i < j -> ds !! i = Some d -> readings ds (reader_new start) !! i = Some x -> comes_short (snd d) x = true ->
       readings ds (reader_new start) !! j = Some y -> y = Ok [].
Proof. exact reader_ends. Qed.
Print Assumptions C80_ends.

(** Between the first read and the second the whole image is exchanged. *)
Example C80_ends_example :
  Forall (fun x => dev_shape D64 (fst x) /\ d_geom (fst x) = d_geom mixed_dev) (exchanged mixed_dev geos_disk)
  /\ map (fun x => length (bytes_of x)) (readings (exchanged mixed_dev geos_disk) (reader_new (18, 1))) = [100; 100; 54; 0].
Proof.
  assert (d_geom geos_disk = d_geom mixed_dev) as Hg by (vm_compute; reflexivity).
  split; [exact (exchanged_shape D64 mixed_dev geos_disk mixed_shape geos_shape Hg)|]. vm_compute. reflexivity.
Qed.
