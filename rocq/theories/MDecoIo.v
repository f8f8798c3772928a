(** * Model: reading and writing decorations (p1788/decoration/decoration.hpp:86-220) *)
From Coq Require Import ZArith NArith Bool Ascii String List.
From Verif Require Import Deco MStream.
Import ListNotations.
Local Open Scope string_scope.
Local Open Scope N_scope.

(** decoration.hpp:102-159 [operator<<]: the characters written.  For a byte that is no
    decoration nothing is written in alphabetic form. *)
Definition write_deco (o : ostream) (d : deco) : text :=
  if o_dec_numeric o then put_unsigned o d
  else
    let word lo up := put_text o (if o_upper_text o then up else lo) in
    if deq d ill then word "ill" "ILL"
    else if deq d trv then word "trv" "TRV"
    else if deq d def then word "def" "DEF"
    else if deq d dac then word "dac" "DAC"
    else if deq d com then word "com" "COM"
    else [].

(** decoration.hpp:161-220 [operator>>].  The first component is the new value of the
    argument, None when it is not assigned. *)
Definition read_deco (s : istream) : option deco * istream :=
  let s1 := if skipws s then remove_ws s else s in
  let failed (t : istream) : option deco * istream := (None, setfail t) in
  if ok s1 then
    let '(c, s2) := peek s1 in
    if match c with Some a => isdigit a | None => false end then
      let '(n, s3) := read_unsigned s2 in
      match n with
      | Some v =>
        if ok s3 then
          if v =? 0 then (Some ill, s3) else if v =? 4 then (Some trv, s3) else if v =? 8 then (Some def, s3)
          else if v =? 12 then (Some dac, s3) else if v =? 16 then (Some com, s3) else failed s3
        else failed s3
      | None => failed s3
      end
    else
      let '(l, s3) := read 3 s2 in
      if ok s3 then
        let w := ascii_to_lower l in
        if teq w (txt "ill") then (Some ill, s3) else if teq w (txt "trv") then (Some trv, s3)
        else if teq w (txt "def") then (Some def, s3) else if teq w (txt "dac") then (Some dac, s3)
        else if teq w (txt "com") then (Some com, s3) else failed s3
      else failed s3
  else failed s1.
(** The value of the argument after reading. *)
Definition read_into (old : deco) (s : istream) : deco * istream :=
  match read_deco s with (Some d, s') => (d, s') | (None, s') => (old, s') end.
