(** Model of devices/basic.go and devices/util.go. *)
From Coq Require Import ZArith List Bool.
From Verif Require Import GoBase GoProg Command Message MsgWriter.
Import ListNotations.
Open Scope Z_scope.

(** insteon.go: engine versions. *)
Definition ver_I1 : Z := 0.
Definition ver_I2 : Z := 1.
Definition ver_I2Cs : Z := 2.

(** devices/device.go:155-160 [DeviceInfo]. *)
Record dinfo : Type := mkDI { di_addr : Z; di_dc0 : Z; di_dc1 : Z; di_fw : Z; di_engine : Z }.
Definition dinfo_zero : dinfo := mkDI 0 0 0 0 0.

(** devices/util.go:9-15 [checksum]: a byte sum. *)
Definition checksum (cmd : Z) (buf : list Z) : Z :=
  let sum := fold_left (fun s b => byte_of (s + b)) buf (byte_of (command1 cmd + command2 cmd)) in
  byte_of (Z.lxor sum 0xff + 1).
(** devices/util.go:5-7 [setChecksum]: the old last byte takes part in the sum. *)
Definition set_checksum (cmd : Z) (buf : list Z) : list Z := list_set buf (length buf - 1) (checksum cmd buf).

(** devices/basic.go:71-82 [writeWithChecksum]: the message handed on. *)
Definition with_checksum (m : message) : message :=
  if 0 <? zlen (m_payload m) then
    let p := if zlen (m_payload m) <? 14 then go_copy (zeros 14) (m_payload m) else m_payload m in
    mkMsg (m_src m) (m_dst m) (m_flags m) (m_cmd m) (set_checksum (m_cmd m) p)
  else m.
(** devices/basic.go:56-69 [Write]: the message handed on; the caller's message is changed in place. *)
Definition outgoing (info : dinfo) (m : message) : message :=
  let flags := fl_set_ttl (fl_set_max_ttl fl_StandardDirectMessage 3) 3 in
  let flags1 := if 0 <? zlen (m_payload m) then fl_ExtendedDirectMessage else flags in
  let m1 := mkMsg (m_src m) (di_addr info) flags1 (m_cmd m) (m_payload m) in
  if di_engine info =? ver_I2Cs then with_checksum m1 else m1.
Definition bd_write {W} (info : dinfo) (mw : mwriter W) (m : message) : prog W mresult := mw_write mw (outgoing info m).
(** devices/basic.go:40-54: the device is itself a message writer; Read is that of the writer below. *)
Definition bd_mw {W} (info : dinfo) (mw : mwriter W) : mwriter W := mkMW (mw_read mw) (bd_write info mw).

(** devices/basic.go:105-116 [sendCommand] (also [Send], 97-99): a nil acknowledgement is dereferenced. *)
Definition bd_send {W} (info : dinfo) (mw : mwriter W) (cmd : Z) (payload : list Z) : prog W (Z * option error) :=
  do (ack, err) <- bd_write info mw (mkMsg 0 0 0 cmd payload) ;;
  match err with
  | Some e => pret (0, Some e)
  | None => match ack with None => ppanic | Some a => pret (m_cmd a, None) end
  end.
(** devices/basic.go:88-91 [SendCommand]. *)
Definition bd_send_command {W} (info : dinfo) (mw : mwriter W) (cmd : Z) (payload : list Z) : prog W (option error) :=
  do (_, err) <- bd_send info mw cmd payload ;; pret err.

(** devices/basic.go:118-149 [errLookup]. *)
Definition err_lookup (info : dinfo) (msg : message) (err : option error) : option error :=
  if err_is err EDevNak then
    let c := Z.land (command2 (m_cmd msg)) 0xff in
    Some (if di_engine info =? ver_I2Cs then
            if c =? 0xfb then EDevIllegalValue else if c =? 0xfc then EPreNak else if c =? 0xfd then EDevIncorrectChecksum
            else if c =? 0xfe then EDevNoLoadDetected else if c =? 0xff then EDevNotLinked else EDevUnexpectedResponse
          else
            if c =? 0xfd then EUnknownCommand else if c =? 0xfe then EDevNoLoadDetected
            else if c =? 0xff then EDevNotLinked else EDevUnexpectedResponse)
  else err.

(** devices/device.go:26-51 [ProductData]: (key, category). *)
Definition pd_unmarshal (old : list Z * list Z) (buf : list Z) : (list Z * list Z) * option error :=
  if zlen buf <? 14 then (old, Some (EWrap EBufferTooShort)) else ((slice buf 1 4, slice buf 4 6), None).
Definition pd_marshal (pd : list Z * list Z) : list Z := 0 :: go_copy (zeros 3) (fst pd) ++ go_copy (zeros 2) (snd pd) ++ [0xff].

(** devices/basic.go:152-162 [ProductData]; the result pointer is non-nil as soon as the response came. *)
Definition bd_product_data {W} (fuel : nat) (info : dinfo) (mw : mwriter W) : prog W (option (list Z * list Z) * option error) :=
  do (_, err) <- bd_write info mw (mkMsg 0 0 0 c_ProductDataReq []) ;;
  match err with
  | Some e => pret (None, Some e)
  | None =>
      do (msg, err1) <- read_match fuel (bd_mw info mw) (cmd_matcher c_ProductDataResp) ;;
      match err1 with
      | Some e => pret (None, Some e)
      | None => match msg with
                | None => ppanic
                | Some m => match pd_unmarshal (zeros 3, zeros 2) (m_payload m) with (pd, e) => pret (Some pd, e) end
                end
      end
  end.

(** devices/basic.go:164-174 [ExtendedGet]. *)
Definition bd_extended_get {W} (fuel : nat) (info : dinfo) (mw : mwriter W) (data : list Z) : prog W (list Z * option error) :=
  do (_, err) <- bd_write info mw (mkMsg 0 0 0 c_ExtendedGetSet data) ;;
  match err with
  | Some e => pret ([], Some e)
  | None =>
      do (msg, err1) <- read_match fuel (bd_mw info mw) (cmd_matcher c_ExtendedGetSet) ;;
      match err1 with
      | Some e => pret ([], Some e)
      | None => match msg with None => ppanic | Some m => pret (m_payload m, None) end
      end
  end.

(** devices/basic.go:192-221: linking modes (the waiting time is not modelled). *)
Definition bd_enter_linking {W} (info : dinfo) (mw : mwriter W) (group : Z) : prog W (option error) :=
  if di_engine info =? ver_I2Cs then bd_send_command info mw (sub_command c_EnterLinkingModeExt group) (zeros 14)
  else bd_send_command info mw (sub_command c_EnterLinkingMode group) [].
Definition bd_enter_unlinking {W} (info : dinfo) (mw : mwriter W) (group : Z) : prog W (option error) :=
  bd_send_command info mw (sub_command c_EnterUnlinkingMode group) (if di_engine info =? ver_I2Cs then zeros 14 else []).
Definition bd_exit_linking {W} (info : dinfo) (mw : mwriter W) : prog W (option error) :=
  bd_send_command info mw c_ExitLinkingMode [].
