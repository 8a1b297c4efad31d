(** A concrete run of cdisk on the host's files. *)
From Coq Require Import Ascii String.
From Verif Require Import Base Layout Image Block Petscii GeosTypes DirEntry Validate Spec SpecBam SpecFiles Session SpecDisk Cdisk SpecTool
  CodecMore Text Errors Host Main SpecHost HostProofs.
Local Open Scope list_scope.

Definition place_disk : file_path := str "/tmp/disk.d64".
Definition place_source : file_path := str "hello.txt".
Definition place_copy : file_path := str "copy.txt".
Definition host0 : host := put_file place_source [72; 69; 76; 76; 79] (fun _ => None).
Definition around : surroundings := mk_surroundings [[1; 2]; [3]] (fun bs => [bs]) 100 10.

Lemma around_fair : fair around.
Proof.
  split; [cbn; lia|]. split; [intros bs; cbn; apply app_nil_r|]. unfold around, is_byte. cbn [su_stdin].
  repeat (apply Forall_cons_2; [repeat (apply Forall_cons_2; [lia|]); apply Forall_nil_2|]). apply Forall_nil_2.
Qed.
Lemma host0_bytes : byte_files host0.
Proof.
  apply put_bytes; [done|]. unfold is_byte. repeat (apply Forall_cons_2; [lia|]). apply Forall_nil_2.
Qed.
Definition host1 : host := r_host (invoke around place_disk CCreate host0).
Definition host2 : host := r_host (invoke around place_disk (CFormat (str "LABEL") (str "ID")) host1).
Definition table2 : astate := table (from_str_lossy (str "LABEL") ++ repeat 160 11) 1 NoBorder (repeat None 8).
Lemma host2_image : image_file D64 table2 place_disk host2 /\ byte_files host2.
Proof.
  destruct (host_create around place_disk host0 around_fair host0_bytes eq_refl) as (_ & H2 & _ & H4).
  destruct (host_format around place_disk host1 D64 _ (str "LABEL") (str "ID") H2 H4) as (H5 & H6 & _); [vm_compute; lia|]. exact (conj H5 H6).
Qed.
(** Four runs: write, list, read under the new name, delete a missing file. *)
Definition script : list (surroundings * command) :=
  [(around, CWrite (Some (str "prg")) place_source (Some (str "GREETING")));
   (around, CRename (str "GREETING") (str "HELLO"));
   (around, CDir 0); (around, CRead (str "HELLO") (Some place_copy)); (around, CDelete (str "GREETING")); (around, CValidate)].
