(** Connections: theorems for C91. *)
From Verif Require Import Base ConnModel ConnSpec ConnProofs.

(** What a sequence of ReadLine and Recv calls returns is the stream of the peer, cut at line ends and at the sizes asked for. *)
Theorem C91_stream : forall cap rs c, (1 <= cap)%nat -> exists outs c',
  rrun cap rs c = Some (outs, c') /\ answers rs (pending c) outs (pending c').
Proof. exact rrun_ok. Qed.
Print Assumptions C91_stream.
(** It does not depend on how the bytes arrive, nor on the size of the read buffer. *)
Theorem C91_pieces : forall cap1 cap2 rs c1 c2, (1 <= cap1)%nat -> (1 <= cap2)%nat ->
  pending c1 = pending c2 -> exists outs c1' c2',
  rrun cap1 rs c1 = Some (outs, c1') /\ rrun cap2 rs c2 = Some (outs, c2') /\ pending c1' = pending c2'.
Proof. exact chunks_irrelevant. Qed.
Print Assumptions C91_pieces.
(** A download loop sees every byte exactly once, in order. *)
Theorem C91_download : forall size fuel c, (1 <= size)%nat -> (length (pending c) < fuel)%nat ->
  concat (fetches fuel size c) = pending c.
Proof. exact fetches_all. Qed.
Print Assumptions C91_download.
(** Send sends everything, in whatever pieces the kernel takes it. *)
Theorem C91_send : forall sched data, send_all sched data = Some data.
Proof. exact send_all_ok. Qed.
Print Assumptions C91_send.
(** WriteLine reports success although only a part was sent. *)
Theorem C91_write_line_refuted : exists sched data out, write_line sched data = (out, true) /\ out <> data.
Proof. exists [2%nat], [81; 85; 73; 84; 13; 10], [81; 85]. split; [reflexivity|discriminate]. Qed.
Print Assumptions C91_write_line_refuted.

(** "ab\ncd" in pieces of one and three bytes: a line, a line of at most one character, a block; then the end. *)
Example C91_ex : let s := [97; 98; 10; 99; 100; 101; 102] in
  let rs := [CLine 10; CLine 2; CBytes 2; CBytes 5] in
  option_map fst (rrun 4 rs (Conn [] s [1; 3; 1]%nat)) = Some [Some [97; 98; 10]; Some [99]; Some [100; 101]; None] /\
  option_map fst (rrun 2 rs (Conn [97] [98; 10; 99; 100; 101; 102] [])) = Some [Some [97; 98; 10]; Some [99]; Some [100; 101]; None] /\
  concat (fetches 20 3 (Conn [97; 98] [10; 99; 100; 101; 102] [2; 1]%nat)) = s /\ send_all [1; 1; 2]%nat s = Some s.
Proof. repeat split; vm_compute; reflexivity. Qed.
