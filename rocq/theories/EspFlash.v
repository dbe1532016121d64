(** Writing to the flash of ESP-IDF 5 with verification of writes:
    ports/esp_idf/memfault/v5.x/memfault_esp_spi_flash.c:24-50. Pointers have 32 bits. *)
From Verif Require Import Base.

(** sizeof(temp_buf), :26 *)
Definition temp_size : Z := 128.

(** One call of esp_flash_write() (of ESP-IDF, not in /repo): where and what *)
Definition piece : Type := Z * list Z.

(** The loop, :31-44. [src], [data]: the address of the source and all that may be read there; [errs]: the results of the
    coming calls, 0 when there is none left. The accepted pieces are collected. [None]: a read outside of the source. *)
Fixpoint vw_loop (fuel : nat) (dest src src_end : Z) (data : list Z) (p : Z) (errs : list Z) (ws : list piece)
  : option (Z * list piece) :=
  match fuel with
  | 0%nat => None
  | S fuel =>
      if p <? src_end then
        let n := Z.min temp_size (u32 (src_end - p)) in                  (* :34 *)
        do temp <- read_at data (p - src) n;                             (* :35 *)
        let addr := u32 (dest + u32 (p - src)) in                        (* :40 *)
        let err := match errs with [] => 0 | e :: _ => e end in
        if negb (err =? 0) then Some (err, ws)                           (* :41-43 *)
        else vw_loop fuel dest src src_end data (u32 (p + temp_size)) (tl errs) (ws ++ [(addr, temp)])   (* :32 *)
      else Some (0, ws)
  end.
(** memfault_esp_spi_flash_write with CONFIG_SPI_FLASH_VERIFY_WRITE, :24-46 *)
Definition vwrite (dest src : Z) (data : list Z) (errs : list Z) : option (Z * list piece) :=
  vw_loop (S (length data)) dest src (u32 (src + zlen data)) data src errs [].
(** and without it, :48 *)
Definition pwrite (dest : Z) (data : list Z) (err : Z) : Z * list piece :=
  if err =? 0 then (0, [(dest, data)]) else (err, []).

(** What accepted pieces do to the flash: [prog old new] is what a byte becomes when it is written *)
Definition program (prog : Z -> Z -> Z) (f : Z -> Z) (w : piece) : Z -> Z :=
  fun x => match get (snd w) (x - fst w) with Some b => prog (f x) b | None => f x end.
Definition programs (prog : Z -> Z -> Z) (f : Z -> Z) (ws : list piece) : Z -> Z := fold_left (program prog) ws f.
