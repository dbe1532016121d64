(** Property C20: the run-length data source. *)
From Verif Require Import Base RleSpec DataSourceRle DataSourceRleSpec DataSourceRleProofs.

(** There is an encoding [E] that the format's decoder inverts, such that in every history that
    respects the contract (select, ask for the size, read in order and not past the end, abort and
    start over at any point, mark read), with reads of any lengths, the source announces the length
    of [E m] for the oldest message [m] and the reads deliver exactly the bytes of [E m] in order;
    a read from any other offset is refused and changes nothing. *)
Theorem C20_rle_source_delivers_encoding : exists E : list Z -> list Z,
  (forall m, zlen m < 2147483648 -> rle_decode (E m) = Some m) /\
  forall q ops rs q' p', Forall (fun m => zlen m < 2147483648) q -> Forall ds_op_ok ops ->
    dsp_run E q None ops = Some (rs, q', p') ->
    exists d', ds_run q ds_init ops = Some (rs, q', d').
Proof. exact rle_source_refines. Qed.
Print Assumptions C20_rle_source_delivers_encoding.

(** 300 equal bytes and a tail, read in pieces, aborted half way, read again, marked. *)
Example C20_case :
  option_map fst (ds_run [fill 300 7 ++ [1; 2; 2; 3]; [9]] ds_init
    [DActive true; DHasMore; DRead 0 2; DRead 5 1; DRead 2 3; DActive false; DActive true; DHasMore;
     DRead 0 8; DMark; DHasMore; DRead 0 2])
  = Some ([RNone; RMore (Some 8); RRead true [216; 4]; RRead false []; RRead true [7; 7; 1]; RNone; RNone;
           RMore (Some 8); RRead true [216; 4; 7; 7; 1; 2; 2; 3]; RNone; RMore (Some 2); RRead true [1; 9]], [[9]]).
Proof. vm_compute. reflexivity. Qed.
