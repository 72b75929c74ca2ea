(** SpecMoved.v - histories in which the device of the disk is exchanged. *)
From Verif Require Export SpecCareful.
Open Scope list_scope.
Open Scope N_scope.

(** The device [d] has room for what the header in use describes. *)
Definition room_on (g : gdisk) (d : dev) : Prop :=
  addressable d /\ forall h, header_of g h -> (backup_at h + 1) * lb_u64 (c_lb (g_config g)) <= lenN (data d).
(** A history of careful calls (SpecCareful) during which the device is exchanged any number of times, with
    [update_disk_device] or by going on with a copy made by [with_disk_device].  The disk [g] uses a device that was [d0]
    when the disk received it; at the end the disk is [g'], and its device was [d1] when received.  The list has the
    devices used in between: as received, and as they were when the disk gave them up. *)
Inductive moved_run (oc : bool) : dev -> gdisk -> list (dev * dev) -> dev -> gdisk -> Prop :=
| mr_none d0 g : moved_run oc d0 g [] d0 g
| mr_call o d0 g g1 l d1 g' : careful oc g o -> typed_call o -> step oc o g = Some g1 ->
    moved_run oc d0 g1 l d1 g' -> moved_run oc d0 g l d1 g'
| mr_move d w d0 g old g1 l d1 g' : room_on g d -> update_disk_device d w g = (old, g1) ->
    moved_run oc d g1 l d1 g' -> moved_run oc d0 g ((d0, old) :: l) d1 g'
| mr_copy d w d0 g l d1 g' : room_on g d ->
    moved_run oc d (with_disk_device d w g) l d1 g' -> moved_run oc d0 g ((d0, g_device g) :: l) d1 g'.
(** The second of two states of a device has the user data of the first: block 0 and the usable blocks of [h]. *)
Definition same_user_data (lb : lbsize) (h : header) (a b : dev) : Prop :=
  lenN (data b) = lenN (data a) /\ forall i, user_byte lb h i -> byte_no (data b) i = byte_no (data a) i.
