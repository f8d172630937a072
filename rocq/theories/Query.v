(** Model of devices/connection.go (IDRequest, GetEngineVersion) and of Open and Lookup in devices/device.go. *)
From Coq Require Import ZArith List Bool.
From Verif Require Import GoBase GoProg Command Message MsgWriter BasicDevice.
Import ListNotations.
Open Scope Z_scope.

(** devices/connection.go:46-56 [IDRequest]: firmware version, category pair, error.  The source of the answer is not looked at. *)
Definition id_request {W} (fuel : nat) (mw : mwriter W) (dst : Z) : prog W (Z * (Z * Z) * option error) :=
  do (_, err) <- mw_write mw (mkMsg 0 dst fl_StandardDirectMessage c_IDRequest []) ;;
  match err with
  | Some e => pret (0, (0, 0), Some e)
  | None =>
      do (msg, err1) <- read_match fuel mw (or_matcher [cmd_matcher c_SetButtonPressedResponder; cmd_matcher c_SetButtonPressedController]) ;;
      match err1 with
      | Some e => pret (0, (0, 0), Some e)
      | None =>
          match msg with
          | None => ppanic
          | Some m => pret (byte_of (m_dst m), (byte_of (Z.shiftr (m_dst m) 16), byte_of (Z.shiftr (m_dst m) 8)), None)
          end
      end
  end.

(** devices/connection.go:58-75 [GetEngineVersion]; a nil acknowledgement is dereferenced. *)
Definition get_engine_version {W} (mw : mwriter W) (dst : Z) : prog W (Z * option error) :=
  do (ack, err) <- mw_write mw (mkMsg 0 dst fl_StandardDirectMessage c_GetEngineVersion []) ;;
  match err with
  | None => match ack with None => ppanic | Some a => pret (command2 (m_cmd a), None) end
  | Some e =>
      if error_eqb e EDevNak then
        match ack with
        | None => ppanic
        | Some a => if command2 (m_cmd a) =? 0xff then pret (ver_I2Cs, Some EDevNotLinked) else pret (0, Some EDevNak)
        end
      else pret (0, Some e)
  end.

(** devices/device.go:167-182 [Open], over the already filtered message writer: the device (its information), the information
    and the error. *)
Definition dev_open {W} (fuel : nat) (mw : mwriter W) (dst : Z) : prog W (option dinfo * dinfo * option error) :=
  do (v, err) <- get_engine_version mw dst ;;
  match err with
  | Some e =>
      let info := mkDI dst 0 0 0 v in
      pret (if error_eqb e EDevNotLinked then Some info else None, info, Some e)
  | None =>
      do (fw, dc, err1) <- id_request fuel mw dst ;;
      let info := mkDI dst (fst dc) (snd dc) fw v in
      match err1 with
      | None => pret (Some info, info, None)
      | Some e => pret (if error_eqb e EDevNotLinked then Some info else None, info, Some e)
      end
  end.

(** devices/device.go:186-202 [Lookup]: which kind of device is made. *)
Inductive dkind : Type := KBasic | KDimmer | KSwitch | KOutlet | KThermostat.
Definition dev_lookup (info : dinfo) : dkind :=
  if di_dc0 info =? 0x01 then KDimmer
  else if di_dc0 info =? 0x02 then (if di_dc1 info =? 0x08 then KOutlet else KSwitch)
  else if di_dc0 info =? 0x05 then KThermostat
  else KBasic.
