(** Model of components/core/src/memfault_event_storage.c and the parts of
    components/util/src/memfault_circular_buffer.c it uses, as programs of single accesses to memory
    shared between tasks (Conc.v): every read or write of a member of s_event_storage and every byte
    copied is a step of its own, and the lock is where the source takes it.
    Simplifications: the two small structures of the write and of the read state are read and written
    in one step; [total_space] and [storage] are constants after boot; the header of a batch is built
    in one step (its buffer is on the stack); persisting (NV support) is left out. *)
From Verif Require Import Base CircularBuffer EventStorage Conc.

Definition pr := prog es.
Definition map_cb (f : cbuf -> cbuf) (s : es) : es := set_cb s (f (es_cb s)).
(** Members of s_event_storage, include/memfault/util/circular_buffer.h:24-29 *)
Definition get_rd : pr Z := fetch (fun s => rd (es_cb s)).
Definition get_sz : pr Z := fetch (fun s => sz (es_cb s)).
Definition put_rd (x : Z) : pr unit := change (map_cb (fun c => mk_cbuf x (sz c) (tot c) (st c))).
Definition put_sz (x : Z) : pr unit := change (map_cb (fun c => mk_cbuf (rd c) x (tot c) (st c))).
(** One byte of the storage. *)
Definition load (i : Z) : pr Z :=
  Act (fun s => match get (st (es_cb s)) i with Some b => Some (b, s) | None => None end) Ret.
Definition store (i b : Z) : pr unit :=
  Act (fun s => match put (st (es_cb s)) i b with
                | Some m => Some (tt, map_cb (fun c => mk_cbuf (rd c) (sz c) (tot c) m) s)
                | None => None end) Ret.
(** memcpy() from and to the storage. *)
Fixpoint load_n (n : nat) (i : Z) : pr (list Z) :=
  match n with O => Ret [] | S n => let* b := load i in let* r := load_n n (i + 1) in Ret (b :: r) end.
Fixpoint store_n (i : Z) (d : list Z) : pr unit :=
  match d with [] => Ret tt | b :: d => store i b ;; store_n (i + 1) d end.
(** s_event_storage_write_state and s_event_storage_read_state, memfault_event_storage.c:77-79 *)
Definition get_w : pr (bool * Z) := fetch (fun s => (es_wip s, es_written s)).
Definition put_w (b : bool) (n : Z) : pr unit := change (fun s => set_w s b n).
Definition get_r : pr (Z * Z * list Z) := fetch (fun s => (es_active s, es_num s, es_hdr s)).
Definition put_r (a n : Z) (h : list Z) : pr unit := change (fun s => set_r s a n h).

Section Size.
Variable size : Z.   (* total_space *)

(** memfault_circular_buffer.c:33-57 *)
Definition p_read (offset len : Z) : pr (option (list Z)) :=
  let* s := get_sz in                                                   (* :39 *)
  if s <? u32 (offset + len) then Ret None
  else
    let* r := get_rd in                                                 (* :43 *)
    let idx := u32 (r + offset) mod size in
    let avail := size - idx in
    let n := if avail >? len then len else avail in
    let* a := load_n (Z.to_nat n) idx in                                (* :49 *)
    let rem := len - n in
    let* b := (if rem =? 0 then Ret [] else load_n (Z.to_nat rem) 0) in (* :52-54 *)
    Ret (Some (a ++ b)).

(** memfault_circular_buffer.c:112-124 *)
Definition p_consume (n : Z) : pr bool :=
  let* s := get_sz in
  if s <? n then Ret false
  else
    let* r := get_rd in put_rd (u32 (r + n) mod size) ;;                (* :121 *)
    let* s := get_sz in put_sz (s - n) ;;                               (* :122 *)
    Ret true.

(** memfault_circular_buffer.c:126-138 *)
Definition p_consume_end (n : Z) : pr bool :=
  let* s := get_sz in
  if s <? n then Ret false
  else let* s := get_sz in put_sz (s - n) ;; Ret true.

(** memfault_circular_buffer.c:152-185 *)
Definition p_write_at (from_end : Z) (data : list Z) : pr bool :=
  let* s := get_sz in                                                   (* :158 *)
  if s <? from_end then Ret false
  else
    let new := if zlen data >? from_end then zlen data - from_end else 0 in
    let* s := get_sz in                                                 (* :141, :164 *)
    if size - s <? new then Ret false
    else
      let* r := get_rd in let* s := get_sz in                           (* :168 *)
      let idx := u32 (r + s - from_end) mod size in
      let avail := size - idx in
      let n := if avail >? zlen data then zlen data else avail in
      store_n idx (take n data) ;;                                      (* :176 *)
      (if zlen data - n =? 0 then Ret tt else store_n 0 (drop n data)) ;; (* :178-181 *)
      let* s := get_sz in put_sz (u32 (s + new)) ;;                     (* :183 *)
      Ret true.

(** memfault_event_storage.c:111-136, inside the lock; the read state is a local variable. *)
Fixpoint p_scan (fuel : nat) (cfg : es_cfg) (num active : Z) : pr (Z * Z) :=
  match fuel with
  | O => fault
  | S f =>
      let* r := p_read active 2 in                                      (* :115-116 *)
      match r with
      | None => Ret (num, active)
      | Some b =>
          let total := hdr_value b in
          if total =? in_progress_mark then Ret (num, active)           (* :117-119 *)
          else
            let num' := u32 (num + 1) in
            let active' := u32 (active + total) in
            match cfg with
            | None => Ret (num', active')                               (* :124-126 *)
            | Some max =>
                if (1 <? num') && (max <? es_total active' num' 0) then Ret (num, active) (* :128-134 *)
                else p_scan f cfg num' active'
            end
      end
  end.
Definition total_of (x : Z * Z * list Z) : Z := let '(a, n, h) := x in es_total a n (zlen h).

(** memfault_event_storage.c:143-166 *)
Definition p_has (cfg : es_cfg) : pr (bool * Z) :=
  lock ;; let* x := get_r in unlock ;;                                  (* :146-148 *)
  if negb (total_of x =? 0) then Ret (true, total_of x)                 (* :150-153 *)
  else
    lock ;;                                                             (* :157-162 *)
    let* y := p_scan (S (Z.to_nat size)) cfg 0 0 in
    put_r (snd y) (fst y) (match cfg with None => [] | Some _ => batch_header (fst y) end) ;;
    unlock ;;
    let* x := get_r in                                                  (* :164-165 *)
    Ret (negb (total_of x =? 0), total_of x).

(** memfault_event_storage.c:192-228, without the lock *)
Fixpoint p_read_loop (fuel : nat) (buf_len offset cur read_off : Z) : pr (option (list Z)) :=
  if buf_len =? 0 then Ret (Some [])
  else match fuel with
       | O => fault
       | S f =>
           let* r := p_read read_off 2 in                               (* :194-195 *)
           match r with
           | None => Ret None
           | Some b =>
               let read_off := u32 (read_off + 2) in
               let size := u32 (hdr_value b - 2) in
               if u32 (cur + size) <? offset then
                 p_read_loop f buf_len offset (u32 (cur + size)) (u32 (read_off + size))
               else
                 let start := u32 (offset - cur) in
                 let n := Z.min (u32 (size - start)) buf_len in
                 let* r := p_read (u32 (read_off + start)) n in         (* :215-219 *)
                 match r with
                 | None => Ret None
                 | Some d =>
                     let* x := p_read_loop f (u32 (buf_len - n)) (u32 (offset + n)) (u32 (cur + size)) (u32 (read_off + size)) in
                     Ret (match x with Some d' => Some (d ++ d') | None => None end)
                 end
           end
       end.
(** memfault_event_storage.c:168-229, without the lock *)
Definition p_read_msg (offset buf_len : Z) : pr (option (list Z)) :=
  let* x := get_r in                                                    (* :169 *)
  if total_of x <? u32 (offset + buf_len) then Ret None                 (* :170 *)
  else
    let fuel := S (Z.to_nat size) in
    let* x := get_r in let h := snd x in                                (* :177-187 *)
    if offset <? zlen h then
      let n := Z.min buf_len (zlen h - offset) in
      let* x := p_read_loop fuel (u32 (buf_len - n)) 0 0 0 in
      Ret (match x with Some d => Some (take n (drop offset h) ++ d) | None => None end)
    else p_read_loop fuel buf_len (u32 (offset - zlen h)) 0 0.

(** memfault_event_storage.c:231-244 *)
Definition p_mark : pr unit :=
  let* x := get_r in                                                    (* :232 *)
  if fst (fst x) =? 0 then Ret tt
  else
    lock ;; let* x := get_r in p_consume (fst (fst x)) ;; put_r 0 0 [] ;; unlock ;; Ret tt.

(** memfault_event_storage.c:247-269 *)
Definition p_begin : pr Z :=
  let* w := get_w in                                                    (* :248 *)
  if fst w then Ret 0
  else
    lock ;; let* ok := p_write_at 0 (hdr_bytes in_progress_mark) in unlock ;; (* :256-258 *)
    if negb ok then Ret 0
    else put_w true 2 ;;                                                (* :263-266 *)
         let* s := get_sz in Ret (size - s).                            (* :268 *)

(** memfault_event_storage.c:271-281 *)
Definition p_append (d : list Z) : pr bool :=
  lock ;; let* ok := p_write_at 0 d in unlock ;;                        (* :274-276 *)
  (if (ok : bool) then let* w := get_w in put_w (fst w) (u32 (snd w + zlen d)) else Ret tt) ;; (* :277-279 *)
  Ret ok.

(** memfault_event_storage.c:283-304 *)
Definition p_finish (rollback : bool) : pr unit :=
  let* w := get_w in                                                    (* :284 *)
  if negb (fst w) then Ret tt
  else
    lock ;; let* w := get_w in                                          (* :288-301 *)
    (if rollback then p_consume_end (snd w) else p_write_at (snd w) (hdr_bytes (u16 (snd w)))) ;;
    unlock ;; put_w false 0.                                            (* :304 *)

(** memfault_event_storage.c:443-461 *)
Definition p_used : pr Z := lock ;; let* s := get_sz in unlock ;; Ret s.
Definition p_free : pr Z := lock ;; let* s := get_sz in unlock ;; Ret (size - s).

(** The calls of EventStorage.v as programs. *)
Definition es_code (cfg : es_cfg) (o : es_op) : prog es es_res :=
  match o with
  | EBegin => let* n := p_begin in Ret (RSpace n)
  | EAppend d => let* b := p_append d in Ret (ROk b)
  | EFinish rb => p_finish rb ;; Ret RUnit
  | EHas => let* x := p_has cfg in Ret (RSome (fst x) (snd x))
  | ERead off n => let* d := p_read_msg off n in Ret (RBytes d)
  | EMark => p_mark ;; Ret RUnit
  | EUsed => let* n := p_used in Ret (RNum n)
  | EFree => let* n := p_free in Ret (RNum n)
  end.
End Size.
