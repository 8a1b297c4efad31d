(** Property theorems: changing the header of a disk; documented capacities. *)
From Verif Require Import Base Layout Block Bam Format Petscii GeosTypes DirEntry Header World Chain Directory Writer Rel GeosFile File Validate
  Spec SpecCodec SpecChain SpecBam View DevFacts SpecKinds Session SpecDisk SpecFiles SpecLabel Trace Relabel DemoMixed DemoBorder.

(** C77: at any point of a history the header is changed (all of it but the
    GEOS part) and flushed. From then on every call answers as before, but for the
    name of the disk; a name shorter than 16 bytes shows padded once the image is
    opened again. *)
Theorem C77_label : forall t a s h h',
  reached t a s -> w_header (s_world s) = Some h -> length (h_disk_name h') <= 16 -> h_geos h' = h_geos h ->
  let name := h_disk_name h' ++ repeat 160 (16 - length (h_disk_name h')) in
  exists w1 w2, w_header_mut (fun _ => h') (s_world s) = (w1, Ok tt) /\ flush_header w1 = (w2, Ok tt)
    /\ (length (h_disk_name h') = 16 -> forall os a' rs, arun t (relabelled name a) os = Some (a', rs) -> snd (calls (set_world w2 s) os) = rs)
    /\ (forall os a' rs, arun t (relabelled name a) (OReopen :: os) = Some (a', rs) -> snd (calls (set_world w2 s) (OReopen :: os)) = rs).
Proof. exact relabel_calls. Qed.
Print Assumptions C77_label.

(** It is one sector write, of the bytes of the header only, and opening the
    image gives the new header. *)
Theorem C77_image : forall t a s h h',
  reached t a s -> w_header (s_world s) = Some h -> length (h_disk_name h') <= 16 -> h_geos h' = h_geos h ->
  exists w1 w2 block block',
    w_header_mut (fun _ => h') (s_world s) = (w1, Ok tt) /\ flush_header w1 = (w2, Ok tt)
    /\ sector (w_dev (s_world s)) (dir_track t, 0) = Ok block
    /\ w_dev w1 = w_dev (s_world s) /\ w_dev w2 = after_writes (w_dev (s_world s)) [((dir_track t, 0), block')]
    /\ (forall i, ~ header_field t i -> block' !!! i = block !!! i)
    /\ w_header (open_world t (w_dev w2)) = Some (padded h').
Proof. exact relabel_image. Qed.
Print Assumptions C77_image.

(** A name that is too long is refused when it is flushed. *)
Theorem C77_too_long : forall t a s h h',
  reached t a s -> w_header (s_world s) = Some h -> 16 < length (h_disk_name h') ->
  exists w1, w_header_mut (fun _ => h') (s_world s) = (w1, Ok tt) /\ w_dev w1 = w_dev (s_world s)
    /\ flush_header w1 = (w1, Err EFilenameTooLong).
Proof. exact relabel_too_long. Qed.
Print Assumptions C77_too_long.

(** The GEOS disk [geos_disk] gets another name. *)
Example C77_example : exists h, reached D64 geos_a (start D64 geos_disk) /\ w_header (open_world D64 geos_disk) = Some h
  /\ h_geos h <> None /\ as_label geos_a <> as_label (relabelled [78; 69; 87] geos_a)
  /\ exists a rs, arun D64 (relabelled ([78; 69; 87] ++ repeat 160 13) geos_a) (OReopen :: OName :: geos_ops) = Some (a, rs)
       /\ rs !! 1 = Some (ABytes ([78; 69; 87] ++ repeat 160 13)).
Proof.
  eexists. split; [exact geos_reached|]. split; [vm_compute; reflexivity|]. split; [discriminate|]. split; [discriminate|].
  eexists _, _. split; [vm_compute; reflexivity|reflexivity].
Qed.

(** C25, C27: the totals that the library computes are the documented ones. *)
Theorem C25_total : forall t, total_data_blocks (native_format t) = disk_blocks t.
Proof. exact total_blocks. Qed.
Print Assumptions C25_total.
Theorem C27_total : forall t, max_directory_entries (native_format t) = 8 * dir_limit t.
Proof. exact total_entries. Qed.
Print Assumptions C27_total.
Example C25_totals_example : map disk_blocks [D64; D71; D81] = [664; 1328; 3160] /\ map (fun t => 8 * dir_limit t) [D64; D71; D81] = [144; 144; 296].
Proof. split; reflexivity. Qed.
