(** What buffering has to achieve: each block of the image is written once, whole, at its place, the
    first one last. *)
From Verif Require Import Base Coredump CoredumpSpec BufferedStorage.

(** The writes a coredump consists of: pieces one after the other behind the place of the header,
    then the header. *)
Fixpoint in_sequence (off : Z) (pieces : list (list Z)) : list (Z * list Z) :=
  match pieces with [] => [] | d :: r => (off, d) :: in_sequence (off + zlen d) r end.
Definition dump_writes (header : list Z) (pieces : list (list Z)) : list (Z * list Z) :=
  in_sequence (zlen header) pieces ++ [(0, header)].

(** Cut into blocks of [W], the last filled up with zeros. *)
Fixpoint cut (n : nat) (W off : Z) (l : list Z) {struct n} : list (Z * list Z) :=
  match n, l with
  | O, _ | _, [] => []
  | S n, _ => (off, take W l ++ fill (W - zlen l) 0) :: cut n W (off + W) (drop W l)
  end.
Definition cut_up (W off : Z) (l : list Z) : list (Z * list Z) := cut (length l) W off l.
Definition blocks_to_write (W : Z) (img : list Z) : list (Z * list Z) :=
  cut_up W W (drop W img) ++ [(0, take W img)].

(** The blocks tried when block number [n] can be written iff [ok n]: up to the first that cannot. *)
Fixpoint tried (ok : Z -> bool) (n : Z) (l : list (Z * list Z)) : bool * list bwrite :=
  match l with
  | [] => (true, [])
  | (off, d) :: r => if ok n then let (b, x) := tried ok (n + 1) r in (b, mk_bw off d true :: x) else (false, [mk_bw off d false])
  end.

(** The blocks in the storage. *)
Definition in_storage (st : list Z) (l : list bwrite) : option (list Z) :=
  cd_apply st (map (fun b => mk_cwrite (bw_off b) (bw_data b) true (zlen (bw_data b))) l).
(** The storage once all is written: the image, zeros to the end of the last block, the rest as it was. *)
Definition stored (W e size : Z) (img : list Z) : list Z :=
  img ++ fill ((- zlen img) mod W) 0 ++ fill (size - zlen img - (- zlen img) mod W) e.
