(** How cache-info's output is read: a reader of its lines that knows nothing of how they
    are printed, and what it means for a cache to be as described. *)
From Verif Require Import Base Text TopologySpec ReportSpec.
Open Scope N_scope.

(** One line of the report. *)
Inductive kind := Instruction | Data | Unified.
Record description := Description {
  de_level : N; de_kind : kind; de_count : N; de_size : N;
  de_inclusive : option bool;          (* not told on the first level *)
  de_ways : option N;                  (* None: fully associative *)
  de_sets : N; de_partitions : N; de_complex : bool; de_line : N;
  de_processors : N                    (* 0: not told *)
}.

Local Notation "'let*' x := e 'in' f" := (match e with Some x => f | None => None end) (at level 200, x pattern, f at level 200).

(** "L2 unified cache: 4 x 256 KB (exclusive), 4-way set associative (1024 sets), 64 byte
    lines, shared by 2 processors". *)
Definition read_line (s : list N) : option description :=
  let* s := after (text "L") s in
  let* (level, s) := number_then (text " ") s in
  let* (k, s) := one_of [(text "instruction cache: ", Instruction); (text "data cache: ", Data); (text "unified cache: ", Unified)] s in
  let* (n, s) := a_number s in
  let* (count, amount, s) := match after (text " x ") s with
                             | Some s => match a_number s with Some (a, s) => Some (n, a, s) | None => None end
                             | None => Some (1, n, s)
                             end in
  let* (unit, s) := one_of [(text " bytes", 1); (text " KB", 1024); (text " MB", 1024 * 1024)] s in
  let* (inclusive, s) := one_of [(text " (inclusive), ", Some true); (text " (exclusive), ", Some false); (text ", ", None)] s in
  let* (ways, s) := match after (text "fully associative (") s with
                    | Some s => Some (None, s)
                    | None => match number_then (text "-way set associative (") s with Some (n, s) => Some (Some n, s) | None => None end
                    end in
  let* (sets, s) := number_then (text " sets") s in
  let '(partitions, s) := match after (text ", ") s with
                          | Some r => match number_then (text " partitions") r with Some (n, r) => (n, r) | None => (1, s) end
                          | None => (1, s)
                          end in
  let* (complex, s) := one_of [(text ", complex indexing), ", true); (text "), ", false)] s in
  let* (line, s) := number_then (text " byte lines") s in
  let* (processors, s) := match after (text ", shared by ") s with
                          | Some s => number_then (text " processors") s
                          | None => Some (0, s)
                          end in
  match s with [] => Some (Description level k count (amount * unit) inclusive ways sets partitions complex line processors) | _ => None end.

Fixpoint read_all (ls : list (list N)) : option (list description) :=
  match ls with
  | [] => Some []
  | l :: ls' => let* d := read_line l in let* ds := read_all ls' in Some (d :: ds)
  end.
(** The largest cache size and the caches. *)
Definition read_report (s : list N) : option (N * list description) :=
  let* ls := lines_from [] s in
  match ls with
  | first :: ls =>
      let* s := after (text "Max cache size (upper bound): ") first in
      let* (n, s) := number_then (text " bytes") s in
      match s with [] => let* ds := read_all ls in Some (n, ds) | _ => None end
  | [] => None
  end.

(** ** What is described *)

(** A cache made of sets of ways of lines. *)
Definition well_formed (g : geometry) : Prop :=
  g_size g = g_associativity g * g_sets g * g_partitions g * g_line_size g /\ 0 < g_size g < two32.

(** The description fits the geometry of a cache on a level: bit 0 of the flags means
    unified, bit 1 inclusive, bit 2 complex indexing. *)
Record fits (level : N) (k : kind) (g : geometry) (d : description) : Prop := {
  fits_level : de_level d = level;
  fits_kind : de_kind d = if N.testbit (g_flags g) 0 then Unified else k;
  fits_size : de_size d = g_size g;
  fits_inclusive : level <> 1 -> de_inclusive d = Some (N.testbit (g_flags g) 1);
  fits_sets : de_sets d = g_sets g;
  fits_partitions : de_partitions d = g_partitions g;
  fits_line : de_line d = g_line_size g;
  fits_complex : de_complex d = N.testbit (g_flags g) 2;
  fits_ways : match de_ways d with
              | Some n => n = g_associativity g /\ g_sets g * g_partitions g <> 1
              | None => g_sets g = 1 /\ g_partitions g = 1
              end
}.

(** The fields are 32 bits wide. *)
Definition narrow (c : cache) : Prop :=
  let g := ca_geometry c in g_size g < two32 /\ g_associativity g < two32 /\ g_sets g < two32 /\ g_partitions g < two32 /\
  g_line_size g < two32 /\ N.of_nat (ca_processor_count c) < two32.

(** What the report tells of a level with [count] caches in an array that starts with the one
    given: nothing if there are none; the instruction cache is left out if it is unified. *)
Definition left_out (k : kind) (c : cache) : Prop := k = Instruction /\ N.testbit (g_flags (ca_geometry c)) 0 = true.
Inductive level_told (level : N) (k : kind) : nat * list cache -> list description -> Prop :=
| none_told : forall l, level_told level k (0%nat, l) []
| omitted_told : forall n c l, left_out k c -> level_told level k (n, c :: l) []
| first_told : forall n c l d, n <> 0%nat -> ~ left_out k c -> de_count d = N.of_nat n ->
    fits level k (ca_geometry c) d -> de_processors d = N.of_nat (ca_processor_count c) -> level_told level k (n, c :: l) [d].

(** The number of caches fits, and the first is well formed. *)
Definition good (cs : nat * list cache) : Prop :=
  fst cs = 0%nat \/
  (N.of_nat (fst cs) < two32 /\ exists c l, snd cs = c :: l /\ narrow c /\ well_formed (ca_geometry c)).

(** The line, if there is one, tells the number of caches and fits each of them. *)
Inductive all_told (level : N) (k : kind) : list cache -> list description -> Prop :=
| no_caches_told : all_told level k [] []
| unified_not_told : forall l, Forall (left_out k) l -> all_told level k l []
| each_told : forall l d, l <> [] -> de_count d = N.of_nat (length l) -> Forall (fun c => fits level k (ca_geometry c) d) l -> all_told level k l [d].

(** A geometry that detection found, or none. *)
Definition sound (g : geometry) : Prop :=
  g_size g = 0 \/ (well_formed g /\ g_associativity g < two32 /\ g_sets g < two32 /\ g_partitions g < two32 /\ g_line_size g < two32).
(** The same but for the flags. *)
Definition same_shape (g h : geometry) : Prop :=
  g_size g = g_size h /\ g_associativity g = g_associativity h /\ g_sets g = g_sets h /\ g_partitions g = g_partitions h /\ g_line_size g = g_line_size h.
