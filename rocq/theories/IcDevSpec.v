(** Specification for the device subcommands: which request each of them stands for, and how their results are told. *)
From Coq Require Import ZArith List Bool String.
From Verif Require Import GoBase GoProg GoText GoJson Message MsgWriter BasicDevice Thermostat Database Query DevReqSpec Link LinkText Display IcDev.
Import ListNotations.
Open Scope Z_scope.

(** The named device was opened without an error. *)
Definition opens {W} (open : Z -> prog W (option (bdev W) * option error)) (a : Z) (w : W) (d : bdev W) (w1 : W) : Prop :=
  open a w = (Ret (Some d, None), w1).
(** Nothing is printed; the error is what becomes of the request. *)
Definition quietly {W} (r : outcome (option error) * W) : outcome cmdres * W :=
  match r with
  | (Ret e, w) => (Ret (nothing_shown, e), w)
  | (Panic, w) => (Panic, w)
  | (NoFuel, w) => (NoFuel, w)
  end.
(** From state [w1] on, [r] is one request to [d] and nothing else. *)
Definition only_request {W} (d : bdev W) (w1 : W) (c1 c2 : Z) (data : list Z) (r : outcome cmdres * W) : Prop :=
  exists m, is_request (bd_info d) c1 c2 data m /\ r = quietly (settled (mw_write (bd_writer d) m w1)).

(** The kinds, by the category a device announces. *)
Definition a_dimmer (i : dinfo) : Prop := di_dc0 i = 1.
Definition a_switch (i : dinfo) : Prop := di_dc0 i = 2 /\ di_dc1 i <> 8.
Definition a_thermostat (i : dinfo) : Prop := di_dc0 i = 5.

(** The request behind each subcommand of a dimmer (none for the two that report something). *)
Definition dimmer_request (fw : Z) (c : dimcmd) : option (Z * Z * list Z) :=
  match c with
  | MConfig | MStatus => None
  | MOn l => Some (0x11, l mod 256, [])
  | MOff => Some (0x13, 0, [])
  | MBacklight on => Some (0x20, if on then 9 else 8, repeat 0 14)
  | MLoadSense on => Some (0x20, if on then 6 else 7, repeat 0 14)
  | MBrighten => Some (0x15, 0, [])
  | MDim => Some (0x16, 0, [])
  | MStartBrighten => Some (0x17, 1, [])
  | MStartDim => Some (0x17, 0, [])
  | MStop => Some (0x18, 0, [])
  | MOnFast => Some (0x12, 0, [])
  | MInstant l => Some (0x21, l mod 256, [])
  | MSetStatus l => Some (0x27, l mod 256, [])
  | MOnRamp l r => Some (if fw <? 67 then 0x2e else 0x34, 16 * (l mod 16) + r mod 16, [])
  | MOffRamp r => Some (if fw <? 67 then 0x2f else 0x35, r mod 16, [])
  end.
(** The request behind the acting subcommands of any device. *)
Definition device_request (engine : Z) (c : devcmd) : option (Z * Z * list Z) :=
  match c with
  | DInfo | DDump | DVersion => None
  | DLink g => Some (0x09, g mod 256, if engine =? 2 then repeat 0 14 else [])
  | DUnlink g => Some (0x0a, g mod 256, if engine =? 2 then repeat 0 14 else [])
  | DExitLink => Some (0x08, 0, [])
  | DSend cmd => Some ((cmd / 256) mod 256, cmd mod 256, [])
  | DESend cmd data => if (Nat.ltb (List.length data) 14) then Some ((cmd / 256) mod 256, cmd mod 256, data) else None
  end.
(** The request a switch's acting subcommands ought to stand for. *)
Definition switch_request (c : swcmd) : option (Z * Z * list Z) :=
  match c with
  | SConfig | SStatus => None
  | SOn l => Some (0x11, l mod 256, [])
  | SOff => Some (0x13, 0, [])
  | SBacklight on => Some (0x20, if on then 9 else 8, repeat 0 14)
  | SLoadSense on => Some (0x20, if on then 6 else 7, repeat 0 14)
  end.

(** The terminal shows [out]. *)
Definition terminal (s : shown) (out : list Z) : Prop :=
  match sh_links s with
  | None => out = sh_text s
  | Some ls => exists listing, print_links ls listing /\ out = sh_text s ++ listing
  end.

(** What a walk over the devices must log: each device once, in order, with its failure if it had one. *)
Definition line_addr (l : wline) : Z := match l with WQuery a | WLinksFailed a _ | WOpenFailed a _ => a end.
Definition is_query (l : wline) : bool := match l with WQuery _ => true | _ => false end.

(** The decimal number [n]. *)
Definition decimal (n : Z) (t : list Z) : Prop := Forall (fun c => 48 <= c <= 57) t /\ fold_left (fun a c => 10 * a + (c - 48)) t 0 = n.
(** What [dimmer status] and [switch status] must say about level [l]. *)
Definition dimmer_words (l : Z) (t : list Z) : Prop :=
  (l = 0 /\ t = zs "Dimer is off" ++ [10]) \/ (l = 255 /\ t = zs "Dimer is on" ++ [10]) \/
  (l <> 0 /\ l <> 255 /\ exists ds, decimal l ds /\ t = zs "Dimer is on at level " ++ ds ++ [10]).
Definition switch_words (l : Z) (t : list Z) : Prop :=
  (l = 0 /\ t = zs "Switch is off" ++ [10]) \/ (l <> 0 /\ t = zs "Switch is on" ++ [10]).
(** From [w1] on: one question about the level, and the answer in words; an error if the question failed. *)
Definition level_told {W} (d : bdev W) (w1 : W) (words : Z -> list Z -> Prop) (r : outcome cmdres * W) : Prop :=
  exists m, is_request (bd_info d) 0x19 0 [] m /\
    match mw_write (bd_writer d) m w1 with
    | (Ret (Some ack, None), w2) => exists t, words (m_cmd ack mod 256) t /\ r = (Ret (text_shown t, None), w2)
    | (Ret (_, Some e), w2) => r = (Ret (nothing_shown, Some e), w2)
    | (Ret (None, None), w2) | (Panic, w2) => r = (Panic, w2)
    | (NoFuel, w2) => r = (NoFuel, w2)
    end.

(** What the operating system reports about the database file is not the device library's "not linked". *)
Definition file_errors (os : osresp) : Prop := os_open os <> Some EDevNotLinked /\ snd (os_write os) <> Some EDevNotLinked.

(** Device information as it is stored: bytes, an address, one of the three engine versions. *)
Definition info_shown_ok (i : dinfo) : Prop :=
  0 <= di_addr i < 16777216 /\ is_byte (di_dc0 i) /\ is_byte (di_dc1 i) /\ is_byte (di_fw i) /\ 0 <= di_engine i <= 2.
(** The flags and numbers an operating-flags answer carries, as bits of its five bytes. *)
Definition same_flags (a b : list Z) : Prop :=
  (forall k, In k [0; 1; 2] -> Z.testbit (nth 0 a 0) k = Z.testbit (nth 0 b 0) k) /\ nth 1 a 0 = nth 1 b 0 /\ nth 2 a 0 = nth 2 b 0 /\
  Z.testbit (nth 3 a 0) 4 = Z.testbit (nth 3 b 0) 4 /\ (forall k, In k [0; 1; 2; 5] -> Z.testbit (nth 4 a 0) k = Z.testbit (nth 4 b 0) k).

(** Asking an opened device for its links touches only the modem's world. *)
Definition keeps_database {W} (links : bdev ((fstate * memdb) * W) -> prog ((fstate * memdb) * W) (list link * option error)) : Prop :=
  forall (d : bdev W) st r st', links (lift_bdev d) st = (r, st') -> fst st' = fst st.
Definition knows (db : memdb) (a : Z) : Prop := exists i, In (a, i) (db_map db).

(** What one device of a walk leaves in the log. *)
Definition walk_block (a : Z) (lines : list wline) : Prop :=
  lines = [WQuery a] \/ exists e, lines = [WQuery a; WLinksFailed a e] \/ lines = [WQuery a; WOpenFailed a e].
(** Two thermostat reports that say the same. *)
Definition tstatus_alike (s t : tstatus) : Prop :=
  ts_temp s = ts_temp t /\ ts_humidity s = ts_humidity t /\
  ts_setpoint s = ts_setpoint t /\ ts_deadband s = ts_deadband t /\
  ts_unit s = ts_unit t /\ ts_mode s = ts_mode t /\
  ts_state s mod 16 = ts_state t mod 16.
Definition tstatus_ok (s : tstatus) : Prop :=
  is_byte (ts_unit s) /\ is_byte (ts_mode s) /\ is_byte (ts_state s).
