(** Version strings. *)
From Verif Require Import Base Nalu Crypto Types Hash VTypes NaluList Validator.
Local Open Scope N_scope.

(** isspace in the C locale. *)
Definition is_space (c : N) : bool := (c =? 32) || ((9 <=? c) && (c <=? 13)).
Definition is_digit (c : N) : bool := (48 <=? c) && (c <=? 57).
Fixpoint skip_space (s : list N) : list N :=
  match s with
  | c :: r => if is_space c then skip_space r else s
  | [] => []
  end.
(** The value of the leading digits after [acc], and what follows. *)
Fixpoint scan_digits (acc : N) (s : list N) : N * list N :=
  match s with
  | c :: r => if is_digit c then scan_digits (10 * acc + (c - 48)) r else (acc, s)
  | [] => (acc, [])
  end.
(** An int, or undefined if it cannot be represented. *)
Definition as_int (z : Z) : out Z :=
  if (z <? -2147483648)%Z || (2147483647 <? z)%Z then Undef SignedOverflow else Def z.
(** The conversion %d of sscanf (C11 7.21.6.2): leading white space, a sign, at least one digit. A number
    outside the range of int is undefined behaviour (paragraph 10). A string is the list of its
    characters up to and without the terminating null. *)
Definition scan_int (s : list N) : out (option (Z * list N)) :=
  let s := skip_space s in
  let '(neg, s) := match s with
                   | 45 :: r => (true, r)
                   | 43 :: r => (false, r)
                   | _ => (false, s)
                   end in
  match s with
  | c :: _ =>
      if is_digit c then
        let '(n, r) := scan_digits 0 s in
        do z <- as_int (if neg then - Z.of_N n else Z.of_N n)%Z;
        Def (Some (z, r))
      else Def None
  | [] => Def None
  end.
(** version_str_to_bytes: signed_video_h26x_common.c:192-200, sscanf(str, "v%d.%d.%d", ...) == 3. *)
Definition scan_version (s : list N) : out (option (Z * Z * Z)) :=
  match s with
  | 118 :: s =>
      do x <- scan_int s;
      match x with
      | Some (a, 46 :: s) =>
          do x <- scan_int s;
          match x with
          | Some (b, 46 :: s) =>
              do x <- scan_int s;
              match x with
              | Some (c, _) => Def (Some (a, b, c))
              | None => Def None
              end
          | _ => Def None
          end
      | _ => Def None
      end
  | _ => Def None
  end.

(** signed_video_compare_versions: signed_video_h26x_common.c:1269-1292. None is a null pointer. *)
Definition compare_strings (s1 s2 : option (list N)) : out Z :=
  match s1, s2 with
  | Some s1, Some s2 =>
      do x <- scan_version s1;
      match x with
      | None => Def (-1)%Z
      | Some (a1, a2, a3) =>
          do y <- scan_version s2;
          match y with
          | None => Def (-1)%Z
          | Some (b1, b2, b3) =>
              do r <- as_int (a1 - b1);
              do r <- (if (r =? 0)%Z then as_int (a2 - b2) else Def r);
              do r <- (if (r =? 0)%Z then as_int (a3 - b3) else Def r);
              Def (if (r =? 0)%Z then 0 else if (0 <? r)%Z then 1 else 2)%Z
          end
      end
  | _, _ => Def (-1)%Z
  end.

(** bytes_to_version_str: signed_video_h26x_common.c:203-208, sprintf(str, "v%d.%d.%d", ...), for numbers
    that are not negative. *)
Fixpoint print_digits (fuel : nat) (n : N) : list N :=
  match fuel with
  | O => []
  | S f => if n <? 10 then [48 + n] else print_digits f (n / 10) ++ [48 + n mod 10]
  end.
Definition print_int (n : N) : list N := print_digits 20 n.
Definition print_version (a b c : N) : list N :=
  118 :: print_int a ++ 46 :: print_int b ++ 46 :: print_int c.
