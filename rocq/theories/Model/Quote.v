(** * Quote.v: strconv.Quote (fmt's %q) and base64.StdEncoding, which the script generators
    (yaml/compiler/script_posix.go 30, script_win.go 30 and 44) call. *)
From Verif Require Import Model.Go.

Section Quote.
  (** strconv.IsPrint on code points above ASCII. *)
  Variable isPrintHigh : N -> bool.

  Definition contByte (lo hi : N) (s : string) : option (N * string) :=
    match s with
    | String c s' => if between lo hi c then Some (N.sub (code c) 128, s') else None
    | "" => None
    end.
  (** utf8.DecodeRuneInString on a first byte of at least 0x80: code point and width, [None]
      for an invalid encoding. *)
  Definition decodeRune (c : ascii) (s : string) : option (N * nat) :=
    let tail2 lead r := match contByte 128 191 r with
                        | Some (b, _) => Some (lead * 64 + b, 3%nat) | None => None end%N in
    let tail3 lead r := match contByte 128 191 r with
                        | Some (b, r') => match contByte 128 191 r' with
                                          | Some (b', _) => Some ((lead * 64 + b) * 64 + b', 4%nat)
                                          | None => None end
                        | None => None end%N in
    if between 194 223 c then
      match contByte 128 191 s with Some (b, _) => Some ((code c - 192) * 64 + b, 2%nat)%N | None => None end
    else if between 224 239 c then
      match contByte (if N.eqb (code c) 224 then 160 else 128) (if N.eqb (code c) 237 then 159 else 191) s with
      | Some (b, r) => tail2 ((code c - 224) * 64 + b)%N r | None => None end
    else if between 240 244 c then
      match contByte (if N.eqb (code c) 240 then 144 else 128) (if N.eqb (code c) 244 then 143 else 191) s with
      | Some (b, r) => tail3 ((code c - 240) * 64 + b)%N r | None => None end
    else None.

  Definition hexDigit (n : N) : ascii := byte (if N.ltb n 10 then 48 + n else 87 + n).
  Fixpoint hexFixed (digits : nat) (n : N) : string :=
    match digits with
    | 0 => ""
    | S d => (hexFixed d (n / 16) +++ String (hexDigit (n mod 16)) "")%string
    end.

  (** strconv.appendEscapedRune with a double quote; [raw] are the bytes of the rune. Go before 1.17
      writes 0x7f as \u007f. *)
  Definition escapeRune (r : N) (raw : string) : string :=
    if N.eqb r 34 || N.eqb r 92 then ("\" +++ raw)%string
    else if (if N.ltb r 128 then N.leb 32 r && N.leb r 126 else isPrintHigh r) then raw
    else if N.eqb r 7 then "\a"
    else if N.eqb r 8 then "\b"
    else if N.eqb r 12 then "\f"
    else if N.eqb r 10 then "\n"
    else if N.eqb r 13 then "\r"
    else if N.eqb r 9 then "\t"
    else if N.eqb r 11 then "\v"
    else if N.ltb r 32 || N.eqb r 127 then ("\x" +++ hexFixed 2 r)%string
    else if N.ltb r 65536 then ("\u" +++ hexFixed 4 r)%string
    else ("\U" +++ hexFixed 8 r)%string.

  (** The loop of strconv.appendQuotedWith; [skip] counts the bytes of a multi-byte rune that
      are already handled. *)
  Fixpoint quoteBody (skip : nat) (s : string) : string :=
    match s with
    | "" => ""
    | String c s' =>
        match skip with
        | S k => quoteBody k s'
        | 0 =>
            if N.ltb (code c) 128 then (escapeRune (code c) (String c "") +++ quoteBody 0 s')%string
            else match decodeRune c s' with
                 | Some (r, width) => (escapeRune r (stake width s) +++ quoteBody (width - 1) s')%string
                 | None => ("\x" +++ hexFixed 2 (code c) +++ quoteBody 0 s')%string
                 end
        end
    end.
  (** strconv.Quote. *)
  Definition quote (s : string) : string := (String """" "" +++ quoteBody 0 s +++ String """" "")%string.
End Quote.

(** base64.StdEncoding.EncodeToString. *)
Definition b64Alphabet : string := "ABCDEFGHIJKLMNOPQRSTUVWXYZabcdefghijklmnopqrstuvwxyz0123456789+/".
Definition b64Digit (n : N) : ascii :=
  match String.get (N.to_nat n) b64Alphabet with Some c => c | None => "="%char end.
Fixpoint base64 (s : string) : string :=
  match s with
  | String a (String b (String c s')) =>
      let x := code a in let y := code b in let z := code c in
      String (b64Digit (x / 4)) (String (b64Digit ((x mod 4) * 16 + y / 16))
        (String (b64Digit ((y mod 16) * 4 + z / 64)) (String (b64Digit (z mod 64)) (base64 s'))))
  | String a (String b "") =>
      let x := code a in let y := code b in
      String (b64Digit (x / 4)) (String (b64Digit ((x mod 4) * 16 + y / 16))
        (String (b64Digit ((y mod 16) * 4)) "="))
  | String a "" =>
      let x := code a in
      String (b64Digit (x / 4)) (String (b64Digit ((x mod 4) * 16)) "==")
  | "" => ""
  end%N.
