(** SubmitTx of the command-line backend with its effects: node/cardano-cli.go:24-46 (execCommand) and 104-147. The operating system is an
    argument; the model produces the list of its calls in order. Logging to stderr and the choice of the temporary file's name are outside. *)
From Verif.Model Require Import Base Network Address Tx Node Json.
From Verif.Spec Require Import FsSpec.
Open Scope Z_scope.

(** What the system answers: the name of the temporary file (os.TempDir is a parameter of the name), how many bytes a failing write
    leaves in the file (None: the write succeeds and is complete, as os.File.Write promises), the standard output of a command that exits
    with 0 (None otherwise; it may depend on the files, that is on the calls so far), and whether closing succeeds. *)
Record System := {
  sys_temp : option bytes;
  sys_write : bytes -> option nat;
  sys_exec : list syscall -> bytes -> list bytes -> option bytes;
  sys_close : bool }.

Inductive CliError := CliEncoding (e : goerror) | CliTemp | CliWrite | CliExec | CliClose.

(** cardano-cli.go:24-46 *)
Definition execCommand (S : System) (path : bytes) (net : NetworkInfo) (args : list bytes) (calls : list syscall) : list syscall * option bytes :=
  (calls ++ [SExec path (cli_args net args)], sys_exec S calls path (cli_args net args)).

(** cardano-cli.go:104-147; the deferred os.Remove (126) is the last call of every path after the file was made. Panics of Hex are passed on. *)
Definition cli_submit `{TxCrypto} `{MapOrder} (S : System) (path : bytes) (net : NetworkInfo) (clock : nat) (t : Tx)
    : result (list syscall * (bytes * option CliError)) :=
  match snd (tx_hex clock t) with
  | Panic => Panic
  | Err e => Ok ([], ([], Some (CliEncoding e)))
  | Ok txHex =>
      match sys_temp S with
      | None => Ok ([], ([], Some CliTemp))
      | Some tmp =>
          let defer calls := calls ++ [SRemove tmp] in
          let data := json_envelope txHex in
          match sys_write S data with
          | Some n => Ok (defer [SCreate tmp; SWrite tmp (firstn n data)], ([], Some CliWrite))
          | None =>
              let '(calls, out) := execCommand S path net [str "submit"; str "--tx-file " ++ tmp] [SCreate tmp; SWrite tmp data] in
              match out with
              | None => Ok (defer calls, ([], Some CliExec))
              | Some cliData =>
                  let txHash := cliData in
                  let calls := calls ++ [SClose tmp] in
                  Ok (defer calls, (txHash, if sys_close S then None else Some CliClose))
              end
          end
      end
  end.
