(** Model of the subcommands in cmd/ic/plm.go, cmd/ic/main.go:103-119 and cmd/ic/device.go:100-115.  What is printed on the terminal is
    not modelled, and neither is the command-line library that calls the functions. *)
From Coq Require Import ZArith List Bool.
From Verif Require Import GoBase GoProg GoText Link LinkText Plm UtilLink.
Import ListNotations.
Open Scope Z_scope.

(** A nil device: every method call panics. *)
Definition lk_nil {W} : linkable W :=
  mkLk 0 ppanic (fun _ => ppanic) (fun _ => ppanic) ppanic ppanic (fun _ => ppanic) (fun _ => ppanic) None.
Definition lk_or_nil {W} (d : option (linkable W)) : linkable W := match d with Some d => d | None => lk_nil end.
(** The function [open] of cmd/ic/main.go with [askLink] false, as a parameter. *)
Definition opener (W : Type) : Type := Z -> prog W (option (linkable W) * option error).

(** cmd/ic/plm.go:136-144: linking with one device. *)
Definition ic_link_one {W} (modem : linkable W) (controller responder : bool) (group : Z) (dev : linkable W) : prog W (option error) :=
  do err <- (if controller then force_link group modem dev else pret None) ;;
  match err with
  | Some e => pret (Some e)
  | None => if responder then force_link group dev modem else pret None
  end.
(** cmd/ic/plm.go:127-157 [link]: line 144 returns in the first round that gets there. *)
Fixpoint ic_link {W} (open : opener W) (modem : linkable W) (controller responder : bool) (group : Z) (addrs : list Z)
  : prog W (option error) :=
  match addrs with
  | [] => pret None
  | a :: rest =>
      do (dev, err) <- open a ;;
      match err with
      | None | Some EDevNotLinked => ic_link_one modem controller responder group (lk_or_nil dev)
      | Some _ => ic_link open modem controller responder group rest
      end
  end.

(** cmd/ic/plm.go:162-187: the loop of [unlinkCmd]; [last] is [err] so far. *)
Fixpoint ic_unlink_loop {W} (open : opener W) (modem : linkable W) (group : Z) (addrs : list Z) (last : option error) : prog W (option error) :=
  match addrs with
  | [] => pret last
  | a :: rest =>
      do (dev, err) <- open a ;;
      match err with
      | None =>
          do e1 <- unlink group (lk_or_nil dev) modem ;;
          match e1 with
          | None | Some EDevNotLinked => unlink group modem (lk_or_nil dev)
          | Some e => pret (Some e)
          end
      | Some EDevNotLinked => ic_unlink_loop open modem group rest None
      | Some e => pret (Some e)
      end
  end.
(** cmd/ic/plm.go:39-44 [plmCmd]: the fields [group] and [addresses]. *)
Record plmcmd : Type := mkPlmCmd { pc_group : Z; pc_addresses : list Z }.
(** cmd/ic/plm.go:56: the only instance the program makes; nothing assigns to its fields. *)
Definition the_plmcmd : plmcmd := mkPlmCmd 0 [].
(** cmd/ic/plm.go:159-188 [unlinkCmd]: the parameter [args] is not used. *)
Definition ic_unlink {W} (open : opener W) (modem : linkable W) (p : plmcmd) (args : list Z) : prog W (option error) :=
  ic_unlink_loop open modem (pc_group p) (pc_addresses p) None.

(** cmd/ic/main.go:103-119 [open]: [raw] opens the device in the database, [yes] is the answer to the question. *)
Definition ic_open {W} (raw : opener W) (modem : linkable W) (ask : bool) (yes : prog W bool) (a : Z)
  : prog W (option (linkable W) * option error) :=
  do (dev, err) <- raw a ;;
  match err with
  | Some EDevNotLinked =>
      if ask then
        do y <- yes ;;
        if (y : bool) then do err1 <- ic_link raw modem true false 1 [a] ;; pret (dev, err1)
        else pret (dev, Some EDevNotLinked)
      else pret (dev, Some EDevNotLinked)
  | e => pret (dev, e)
  end.

(** cmd/ic/plm.go:222-224: the unknown flag error. *)
Definition err_unknown_flag : error := EOther 223.
(** cmd/ic/plm.go:197-224: the new configuration. *)
Definition ic_flag_config (set : bool) (flag : list Z) (c : Z) : option Z :=
  match flag with
  | [76] => Some (if set then cfg_set_auto_linking c else cfg_clear_auto_linking c)   (* L *)
  | [77] => Some (if set then cfg_set_monitor c else cfg_clear_monitor c)             (* M *)
  | [65] => Some (if set then cfg_set_auto_led c else cfg_clear_auto_led c)           (* A *)
  | [68] => Some (if set then cfg_set_deadman c else cfg_clear_deadman c)             (* D *)
  | _ => None
  end.
(** cmd/ic/plm.go:190-228 [flagCmd]. *)
Definition ic_flag (sc : schedule) (set : bool) (flag : list Z) : prog plm (option error) :=
  do (c, err) <- plm_config sc ;;
  match err with
  | Some e => pret (Some e)
  | None => match ic_flag_config set flag c with
            | None => pret (Some err_unknown_flag)
            | Some c1 => plm_set_config sc c1
            end
  end.
(** cmd/ic/plm.go:102-108 [resetCmd]; [yes] is the answer to the question. *)
Definition ic_reset (sc : schedule) (yes : bool) : prog plm (option error) := if yes then plm_reset sc else pret None.

(** cmd/ic/device.go:103: nothing to edit. *)
Definition err_no_links : error := EOther 103.
(** cmd/ic/device.go:100-115 [editLinks]; [edit] is the editor (cli.Edit): the file it leaves behind, or an error. *)
Definition ic_edit {W} (lk : linkable W) (edit : list Z -> prog W (list Z * option error)) : prog W (option error) :=
  do (links, _) <- lk_links lk ;;
  match links with
  | [] => pret (Some err_no_links)
  | _ =>
      let input := links_to_text links true in
      do (output, err) <- edit input ;;
      match err with
      | Some e => pret (Some e)
      | None =>
          if bytes_eqb input output then pret None
          else match text_to_links output with
               | (_, Some e) => pret (Some e)
               | (ls, None) => lk_write lk ls
               end
      end
  end.
