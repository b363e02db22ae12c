(** What the slot buffers of a CPU do: a slot holds at most one granule, at a fixed
    virtual address.  Independent of translation tables. *)
From Coq Require Import NArith List Bool.
From Verif Require Import Xlat SpecXlat.
Import ListNotations.
Local Open Scope N_scope.

(** Calls of buffer_map_internal, and of buffer_unmap_internal with the address of a slot *)
Inductive slot_op :=
| SMap (slot addr : N)
| SUnmap (slot : N).
(** What a call returns: the address or NULL, or the page whose cached translations are
    removed *)
Inductive slot_res :=
| RMapped (va : N)
| RNull
| RUnmapped (page : N).

(** The granule that each slot holds *)
Definition slots := N -> option N.
Definition no_slots : slots := fun _ => None.
Definition set_slot (c : slots) (s : N) (g : option N) : slots := fun x => if x =? s then g else c x.

(** The call; None: an assertion fails *)
Definition slot_spec (width nslots : N) (c : slots) (op : slot_op) : option (slots * slot_res) :=
  match op with
  | SMap s addr =>
      if negb (s <? nslots) || negb (addr mod 4096 =? 0) then None
      else match c s with
           | Some _ => Some (c, RNull)
           | None => if addr <? 2 ^ width then Some (set_slot c s (Some addr), RMapped (2 ^ 64 - (108 - s) * 4096))
                     else Some (c, RNull)
           end
  | SUnmap s =>
      match c s with
      | None => None
      | Some _ => Some (set_slot c s None, RUnmapped ((2 ^ 64 - (108 - s) * 4096) / 4096 mod 2 ^ 44))
      end
  end.
(** The same call of the code *)
Definition slot_code (A : xarch) (nslots : N) (l : xllt) (m : N -> N) (op : slot_op) : option ((N -> N) * slot_res) :=
  match op with
  | SMap s addr => match buffer_map A nslots l s addr m with
                   | XOk (m, Some va) => Some (m, RMapped va)
                   | XOk (m, None) => Some (m, RNull)
                   | XPanic => None
                   end
  | SUnmap s => match buffer_unmap l (slot_va s) m with XOk (m, t) => Some (m, RUnmapped t) | XPanic => None end
  end.

(** A history of calls, up to the first assertion that fails *)
Fixpoint slot_run {St : Type} (step : St -> slot_op -> option (St * slot_res)) (s : St) (ops : list slot_op) : option (St * list slot_res) :=
  match ops with
  | [] => Some (s, [])
  | op :: ops =>
      match step s op with
      | None => None
      | Some (s, r) => match slot_run step s ops with None => None | Some (s, rs) => Some (s, r :: rs) end
      end
  end.

(** The slots that are named exist *)
Definition op_slot (op : slot_op) : N := match op with SMap s _ => s | SUnmap s => s end.

(** Readable and writable data, never executable, only for the monitor, tagged with an
    ASID, in the realm's or the non-secure address space *)
Definition data_perm (ns : bool) : s1_perm := mkPerm true false false false ns false false.

(** The upper addresses of a CPU: below the 108 slots a page that is not mapped, the
    stack, two pages that are not mapped, and the stack for exceptions *)
Definition high_expect (pages eh_top stack_top : N) (c : slots) (va : N) : option (N * s1_perm) :=
  let slots_at := 2 ^ 64 - 108 * 4096 in
  let stack_at := slots_at - (pages + 1) * 4096 in
  let eh_at := stack_at - 2 * 4096 in
  if slots_at <=? va then
    match c ((va - slots_at) / 4096) with
    | Some g => Some (g + va mod 4096, data_perm ((va - slots_at) / 4096 =? 0))
    | None => None
    end
  else if (stack_at <=? va) && (va <? stack_at + pages * 4096) then Some (stack_top - pages * 4096 + (va - stack_at), data_perm false)
  else if (eh_at <=? va) && (va <? eh_at + 4096) then Some (eh_top - 4096 + (va - eh_at), data_perm false)
  else None.
