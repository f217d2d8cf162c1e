(* The debugging register: sixtracklib/common/control/debug_register.h.  A register is a
   64-bit unsigned integer (arch_debugging_t), a status a 32-bit signed one (arch_status_t). *)
From Coq Require Import ZArith Bool.
Local Open Scope Z_scope.

(* control/definitions.h 108-126 *)
Definition MIN_FLAG : Z := 0x100000000.
Definition MAX_FLAG : Z := 0x8000000000000000.
Definition STATUS_BITMASK : Z := 0xffffffff.
Definition STATUS_INV_BITMASK : Z := 0xffffffff00000000.
Definition STATUS_MAX_FLAG : Z := 0x80000000.

(* unsigned arithmetic of the C code *)
Definition u32 (z : Z) : Z := z mod 2 ^ 32.
Definition u64 (z : Z) : Z := z mod 2 ^ 64.
Definition not32 (z : Z) : Z := 2 ^ 32 - 1 - z.     (* ~ on a 32-bit operand *)
Definition not64 (z : Z) : Z := 2 ^ 64 - 1 - z.     (* ~ on a 64-bit operand *)

(* debug_register.h 59-80: DebugReg_store_arch_status.  None: signed overflow of
   -status_flags_to_add, for the smallest status only. *)
Definition store_arch_status (reg status : Z) : option Z :=
  if 0 <=? status then
    Some (Z.lor (Z.land reg STATUS_INV_BITMASK) (u64 status))
  else if status =? - 2 ^ 31 then None
  else
    let temp := u32 (- status) in
    let bits := u64 (not32 temp + 1) in
    Some (Z.lor (Z.land reg STATUS_INV_BITMASK) bits).

(* debug_register.h 82-108: DebugReg_get_stored_arch_status.  None: the 32-bit value
   0x80000000 does not fit the signed status type. *)
Definition get_stored_arch_status (reg : Z) : option Z :=
  let bits := Z.land reg STATUS_BITMASK in
  if STATUS_MAX_FLAG <=? bits then
    let temp := u32 (Z.land STATUS_BITMASK (not64 (u64 (bits - 1)))) in
    if temp =? 2 ^ 31 then None else Some (- temp)
  else Some (Z.land STATUS_BITMASK bits).

(* debug_register.h 110-114: DebugReg_reset_arch_status.  The literal 0x00000000ffffffff
   of the macro has type unsigned int, so that ~ is a 32-bit operation and the mask 0. *)
Definition reset_arch_status (reg : Z) : Z := Z.land reg (not32 STATUS_BITMASK).

(* debug_register.h 118-122, 124-129 *)
Definition has_any_flags_set (reg : Z) : bool := negb (reg =? 0).
Definition has_status_flags_set (reg : Z) : bool := negb (Z.land reg STATUS_BITMASK =? 0).

(* debug_register.h 131-145: DebugReg_get_highest_set_flag *)
Definition smear (reg k : Z) : Z := Z.lor reg (Z.shiftr reg k).
Definition get_highest_set_flag (reg : Z) : Z :=
  let reg := smear reg 1 in
  let reg := smear reg 2 in
  let reg := smear reg 4 in
  let reg := smear reg 8 in
  let reg := smear reg 16 in
  let reg := smear reg 32 in
  Z.lxor reg (Z.shiftr reg 1).

(* debug_register.h 147-163: DebugReg_get_next_error_flag *)
Definition get_next_error_flag (reg : Z) : Z :=
  let highest := get_highest_set_flag reg in
  if highest <? MIN_FLAG then MIN_FLAG
  else if highest <? MAX_FLAG then u64 (Z.shiftl highest 1)
  else 0.

(* debug_register.h 165-170: DebugReg_raise_next_error_flag *)
Definition raise_next_error_flag (reg : Z) : Z := Z.lor reg (get_next_error_flag reg).

(* n calls of DebugReg_raise_next_error_flag *)
Fixpoint raise_flags (n : nat) (reg : Z) : Z :=
  match n with O => reg | S n => raise_next_error_flag (raise_flags n reg) end.
