(** The methods of backends/mir.py in whole public calls: what Api.v takes as given is made of the jobs
    of Dispatch.v and of MIR, which is given.  MIR is taken to be installed (line 53 and 92, [import mir]),
    and to be a function of what it is given. *)
From Verif Require Import PyBase PyStr GridSpec Regrid Dispatch.
Local Open Scope string_scope.

Section MirCalls.
  Context {A : Type}.
  Variable py_str : val -> string.
  (** [mir.Job.execute] from [mir.GribMemoryInput] to a BytesIO, and from [mir.ArrayInput] (values and
      their grid) to [mir.ArrayOutput]. *)
  Variable run_grib : string -> job -> result string.
  Variable run_array : array A -> option dict -> job -> result (array A * dict).
  (** backends/mir.py:80-114 [regrid_grib].  Without a grid line 31 is a TypeError, as an unknown option
      is before. *)
  Definition mir_grib (message : string) (grid : option dict) (kwargs : dict) : result string :=
    match grid with Some g => j <- grib_job py_str g kwargs ;; run_grib message j | None => Raise TypeError end.
  (** backends/mir.py:43-77 [regrid] *)
  Definition mir_array (values : array A) (in_grid out_grid : option dict) (kwargs : dict) : result (array A * dict) :=
    match out_grid with Some g => j <- array_job py_str g kwargs ;; run_array values in_grid j | None => Raise TypeError end.
End MirCalls.
