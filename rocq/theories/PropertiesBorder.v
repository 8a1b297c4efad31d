(** Property theorems: the border sector of GEOS disks. *)
From Verif Require Import Base Layout Block Bam Format Petscii GeosTypes DirEntry Header World Chain Directory Writer Rel GeosFile File Validate
  Spec SpecChain SpecBam View DevFacts SpecKinds Session SpecDisk SpecFiles Trace GeosDisk DemoMixed DemoBorder.

(** C76: the files of the border sector are listed last, marked as such, and
    they are at most eight (none on a disk that is not a GEOS disk). *)
Theorem C76_listed_last : forall t a s es,
  reached t a s -> w_directory (s_world s) = Ok es ->
  es = ordinary es ++ in_border es /\ length (in_border es) <= border_room (border_in t (s_world s)).
Proof. exact border_order. Qed.
Print Assumptions C76_listed_last.

(** No call puts a file in the border sector; creating and writing files leave
    the ones in it listed there, renaming one keeps it in its place. *)
Theorem C76_border_kept : forall t a s o a' r es,
  reached t a s -> astep t a o = Some (a', r) -> w_directory (s_world s) = Ok es ->
  exists s' es', call s o = (s', r) /\ w_directory (s_world s') = Ok es'
    /\ border_change o r (map de_name (in_border es)) (map de_name (in_border es')).
Proof. exact border_after. Qed.
Print Assumptions C76_border_kept.

(** The image [geos_disk] is one of a GEOS disk, in order (C24, C54); it has a
    file in the border sector, and [geos_ops] is a session that reads, renames
    and deletes that file, and makes others. *)
Example C76_example : dev_shape D64 geos_disk /\ holds_bytes geos_disk /\ validate (open_world D64 geos_disk) = Ok []
  /\ plain_image D64 geos_disk [(18, 1)] geos_es /\ (exists chains, sound_image D64 geos_disk [(18, 1)] chains geos_a)
  /\ reached D64 geos_a (start D64 geos_disk)
  /\ border_in D64 (open_world D64 geos_disk) = BorderInFiles
  /\ map de_name (ordinary geos_es) = [[65]] /\ map de_name (in_border geos_es) = [[66]]
  /\ shows (open_world D64 geos_disk) geos_A /\ shows (open_world D64 geos_disk) geos_B
  /\ (a_data geos_A, a_data geos_B) = ([1; 2; 3], [9; 8; 7; 6]).
Proof.
  split; [exact geos_shape|]. split; [exact geos_bytes|]. split; [vm_compute; reflexivity|]. split; [exact geos_plain|]. split; [exact geos_table|].
  split; [exact geos_reached|]. split; [vm_compute; reflexivity|]. split; [vm_compute; reflexivity|]. split; [vm_compute; reflexivity|].
  split; [exact geos_shows_A|]. split; [exact geos_shows_B|reflexivity].
Qed.
Example C76_example_session : exists a rs, arun D64 geos_a geos_ops = Some (a, rs)
  /\ rs !! 1 = Some (AReads [[9; 8; 7; 6]])
  /\ (exists es, rs !! 7 = Some (AList es) /\ map (fun x => (fst (fst x), snd x)) es = [([65], 1); ([78], 3); ([67], 1)])
  /\ (exists es, rs !! 14 = Some (AList es) /\ map (fun x => (fst (fst x), snd x)) es = [([65], 1); ([78], 3); ([79], 1)])
  /\ rs !! 15 = Some (AReport []) /\ rs !! 16 = Some (ACount 658).
Proof.
  eexists _, _. split; [vm_compute; reflexivity|]. split; [reflexivity|]. split; [eexists; split; reflexivity|].
  split; [eexists; split; reflexivity|]. split; reflexivity.
Qed.
