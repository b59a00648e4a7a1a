(** * What writing to a stream means *)
From Verif Require Import Base.
From Verif Require Lester.
Import Lester (io_error, io_outcome, IoOk, IoErr, IoPanic).

(** One call after the other, up to the first that does not succeed. *)
Fixpoint feed {W : Type} (write_all : W -> bytes -> W * io_outcome) (calls : list bytes) (w : W) : W * io_outcome :=
  match calls with
  | [] => (w, IoOk)
  | c :: rest =>
      match write_all w c with
      | (w', IoOk) => feed write_all rest w'
      | other => other
      end
  end.

(** A stream that keeps in order what it took: all of what it was given when
    the call succeeds, and the beginning of it otherwise. *)
Definition honest {W : Type} (taken : W -> bytes) (write_all : W -> bytes -> W * io_outcome) : Prop :=
  forall w b w' r, write_all w b = (w', r) ->
    match r with
    | IoOk => taken w' = taken w ++ b
    | _ => exists p q, b = p ++ q /\ taken w' = taken w ++ p
    end.

(** The same for a file, which tells how much it took. *)
Definition honest_file {F : Type} (contents : F -> bytes) (put : F -> bytes -> F * N * option io_error) : Prop :=
  forall f b f' n e, put f b = (f', n, e) ->
    match e with
    | None => contents f' = contents f ++ b
    | Some _ => contents f' = contents f ++ firstn (N.to_nat n) b
    end.
