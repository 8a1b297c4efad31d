(** Scripts of cdisk commands, for the examples beside the theorems. *)
From Verif Require Import Base Layout Block Bam Format Petscii GeosTypes DirEntry Header World Chain Directory File
  Spec SpecBam SpecFiles CodecMore Session SpecDisk DevFacts View DemoImages Cdisk SpecTool Demo ToolProofs ToolMore.

(** The names "a", "b", "c". *)
Definition tool_a : list N := [97%N].
Definition tool_b : list N := [98%N].
Definition tool_c : list N := [99%N].
Definition buffer : nat := N.to_nat 8192.
Definition tool_script : list request :=
  [TFormat [100; 101; 109; 111]%N [48; 49]%N;
   TWrite [repeat 7 300; repeat 8 100] tool_a PRG; TWrite [[1; 2; 3]] tool_b SEQ; TWrite [[1]] tool_a SEQ;
   TRead tool_a buffer; TRename tool_b tool_a; TRename tool_a tool_c; TRead tool_a buffer; TRead tool_c buffer;
   TAppend [[1]] tool_c; TDelete tool_c; TDelete tool_c; TRead tool_b buffer; TDir; TValidate].
Definition tool_replies_on (label : list nat) (free : nat) : list reply :=
  [RDone; RDone; RDone; RError EFileExists;
   RBytes (repeat 7 300 ++ repeat 8 100); RError EFileExists; RDone; RError ENotFound; RBytes (repeat 7 300 ++ repeat 8 100);
   RError EReadOnly; RDone; RError ENotFound; RBytes [1; 2; 3];
   RDir label [([66], mk_attr SEQ false false false true, 1)] free; RReport []].
Definition tool_label : list nat := [68; 69; 77; 79] ++ repeat 160 12.
Definition tool_replies : list reply := tool_replies_on tool_label 663.
Definition tool_replies_d81 : list reply := tool_replies_on tool_label 3159.

(** A plain file "S" whose second sector does not exist. *)
Definition broken_dev : dev :=
  put (17, 0) 0 (17 :: 30 :: repeat 4 254) (put (18, 1) 2 ([130; 17; 0; 83] ++ repeat 160 15) bare_dev).
Lemma broken_shape : dev_shape D64 broken_dev.
Proof.
  unfold broken_dev. repeat (apply put_shape; [|rewrite ?app_length; cbn [length]; rewrite ?app_length, ?repeat_length; cbn [length]; lia]).
  apply blank_dev_shape.
Qed.

(** A formatted D71. *)
Definition double_dev : dev := fst (run_request D71 (blank_dev D71 true) (TFormat [100; 101; 109; 111]%N [48; 49]%N)).
Lemma double_bytes : holds_bytes double_dev.
Proof. apply byte_blocks. vm_compute. reflexivity. Qed.
Lemma double_shape : dev_shape D71 double_dev /\ d_writable double_dev = true.
Proof.
  destruct (tool_first D71 (blank_dev D71 true) [100; 101; 109; 111]%N [48; 49]%N) as (d' & Hr & Hi).
  - apply blank_dev_shape.
  - reflexivity.
  - by vm_compute; lia.
  - unfold double_dev. rewrite Hr. cbn [fst]. destruct (image_session D71 _ _ Hi) as (_ & Hw & Hd & _). exact (conj Hd Hw).
Qed.
