(** * Script.v: the scripts that run the commands of a step (yaml/compiler/script_posix.go,
    script_win.go). *)
From Verif Require Import Model.Go Model.Types Model.Quote.

(** yaml/compiler/script_posix.go 62-77, up to the commands. *)
Definition buildScriptHead : string := "
if [ -n ""$CI_NETRC_MACHINE"" ]; then
cat <<EOF > $HOME/.netrc
machine $CI_NETRC_MACHINE
login $CI_NETRC_USERNAME
password $CI_NETRC_PASSWORD
EOF
chmod 0600 $HOME/.netrc
fi
unset CI_NETRC_USERNAME
unset CI_NETRC_PASSWORD
unset DRONE_NETRC_USERNAME
unset DRONE_NETRC_PASSWORD
set -e
".
(** yaml/compiler/script_win.go 50-65, up to the commands. *)
Definition buildScriptWinHead : string := "
if ($Env:CI_NETRC_MACHINE) {
@""
machine $Env:CI_NETRC_MACHINE
login $Env:CI_NETRC_USERNAME
password $Env:CI_NETRC_PASSWORD
""@ > (Join-Path $Env:USERPROFILE '_netrc');
}
[Environment]::SetEnvironmentVariable(""CI_NETRC_USERNAME"", $null);
[Environment]::SetEnvironmentVariable(""CI_NETRC_PASSWORD"", $null);
[Environment]::SetEnvironmentVariable(""DRONE_NETRC_USERNAME"", $null);
[Environment]::SetEnvironmentVariable(""DRONE_NETRC_PASSWORD"", $null);
[Environment]::SetEnvironmentVariable(""CI_SCRIPT"", $null);
$ErrorActionPreference = 'Stop';
".

Section Script.
  Variable isPrintHigh : N -> bool.

  (** yaml/compiler/script_posix.go 30-31, script_win.go 30-31. *)
  Definition escaped (command : string) : string := replaceAll (quote isPrintHigh command) "$" "\$".
  (** yaml/compiler/script_posix.go 81-84. *)
  Definition traceScript (esc command : string) : string := ("
echo + " +++ esc +++ "
" +++ command +++ "
")%string.
  (** yaml/compiler/script_win.go 69-72. *)
  Definition traceScriptWin (esc command : string) : string := ("
Write-Output ('+ " +++ esc +++ "');
& " +++ command +++ "; if ($LASTEXITCODE -ne 0) {exit $LASTEXITCODE}
")%string.
  (** yaml/compiler/script_posix.go 28-41. *)
  Fixpoint traceAll (commands : list string) : string :=
    match commands with
    | [] => ""
    | c :: cs => (traceScript (escaped c) c +++ traceAll cs)%string
    end.
  Definition script (commands : list string) : string := (buildScriptHead +++ traceAll commands +++ "
")%string.
  (** yaml/compiler/script_win.go 28-41. *)
  Fixpoint traceAllWin (commands : list string) : string :=
    match commands with
    | [] => ""
    | c :: cs => (traceScriptWin (escaped c) c +++ traceAllWin cs)%string
    end.
  Definition scriptWin (commands : list string) : string := (buildScriptWinHead +++ traceAllWin commands +++ "
")%string.
End Script.
