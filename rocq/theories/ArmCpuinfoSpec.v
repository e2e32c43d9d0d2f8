(** What the lines of an ARM /proc/cpuinfo mean, independent of the parser. *)
From Verif Require Import Base Text LinuxTextSpec CpuinfoLineSpec ArmClustersModel ArmMidrSpec.
Open Scope N_scope.

(** Hexadecimal digits of either case, and the number they denote. *)
Definition is_hex (c : N) : Prop := 48 <= c <= 57 \/ 65 <= c <= 70 \/ 97 <= c <= 102.
Definition nibble (c : N) : N := if c <=? 57 then c - 48 else if c <=? 70 then c - 55 else c - 87.
Definition hex_number (ds : list N) : N := fold_left (fun acc c => acc * 16 + nibble c) ds 0.
(** "0x" and one to [longest] hexadecimal digits. *)
Definition is_hexadecimal (longest : nat) (v : list N) (n : N) : Prop :=
  exists ds, v = text "0x" ++ ds /\ ds <> [] /\ (length ds <= longest)%nat /\ Forall is_hex ds /\ n = hex_number ds.

(** The words of a text, separated by one or more spaces. *)
Fixpoint words_from (current : list N) (s : list N) : list (list N) :=
  match s with
  | [] => match current with [] => [] | _ => [current] end
  | c :: r =>
      if c =? 32 then match current with [] => words_from [] r | _ => current :: words_from [] r end
      else words_from (current ++ [c]) r
  end.
Definition words (s : list N) : list (list N) := words_from [] s.

Inductive cache_number := CacheSize | CacheWays | CacheLine | CacheSets.

(** What a line says about the current processor. *)
Inductive said :=
| Named                                             (* "processor : n" itself *)
| Field (f : midr_field) (v : N)
| Arch (version : N) (letters : list N)
| Feats (names : list (list N))
| L1 (data : bool) (which : cache_number) (n : N).

Inductive arm_meaning :=
| Announces (cpu : N) | Says (s : said) | Board (v : list N) | BoardRevision (v : list N) | Nothing.

(** The keys of the numbers of the first-level caches. *)
Definition cache_key (data : bool) (which : cache_number) : list N :=
  (if data then text "D" else text "I") ++
  match which with
  | CacheSize => text " size" | CacheWays => text " assoc"
  | CacheLine => text " line length" | CacheSets => text " sets"
  end.

Definition plain_keys : list (list N) :=
  [text "processor"; text "Hardware"; text "Revision"; text "CPU part"; text "CPU implementer"; text "CPU implementor";
   text "CPU variant"; text "CPU revision"; text "CPU architecture"; text "Features"].

Inductive arm_line_means (arm32 : bool) : list N -> arm_meaning -> Prop :=
| means_processor : forall line v, key_value line (text "processor") v -> is_decimal v ->
    dec_value v < two32 -> arm_line_means arm32 line (Announces (dec_value v))
| means_part : forall line v n, key_value line (text "CPU part") v -> is_hexadecimal 3 v n ->
    arm_line_means arm32 line (Says (Field PartNumber n))
| means_part_unusable : forall line v, key_value line (text "CPU part") v ->
    (forall n, ~ is_hexadecimal 3 v n) -> arm_line_means arm32 line Nothing
| means_implementer : forall line key v n, key = text "CPU implementer" \/ key = text "CPU implementor" ->
    key_value line key v -> is_hexadecimal 2 v n -> arm_line_means arm32 line (Says (Field Implementer n))
| means_implementer_unusable : forall line key v, key = text "CPU implementer" \/ key = text "CPU implementor" ->
    key_value line key v -> (forall n, ~ is_hexadecimal 2 v n) -> arm_line_means arm32 line Nothing
| means_variant : forall line v n, key_value line (text "CPU variant") v -> is_hexadecimal 1 v n ->
    arm_line_means arm32 line (Says (Field Variant n))
| means_variant_unusable : forall line v, key_value line (text "CPU variant") v ->
    (forall n, ~ is_hexadecimal 1 v n) -> arm_line_means arm32 line Nothing
| means_revision : forall line v, key_value line (text "CPU revision") v -> is_decimal v -> dec_value v < 16 ->
    arm_line_means arm32 line (Says (Field Revision (dec_value v)))
| means_revision_unusable : forall line v, key_value line (text "CPU revision") v -> bytes v -> ~ Forall is_digit v ->
    arm_line_means arm32 line Nothing
| means_architecture : forall line v ds letters, key_value line (text "CPU architecture") v -> v = ds ++ letters ->
    bytes v -> is_decimal ds -> ~ starts_with_digit letters -> 0 < dec_value ds < two32 ->
    arm_line_means arm32 line (Says (Arch (dec_value ds) letters))
| means_aarch64 : forall line, key_value line (text "CPU architecture") (text "AArch64") ->
    arm_line_means arm32 line (Says (Arch 8 []))
| means_features : forall line v, key_value line (text "Features") v ->
    arm_line_means arm32 line (Says (Feats (words v)))
| means_cache : forall line data which v, arm32 = true -> key_value line (cache_key data which) v -> is_decimal v ->
    dec_value v < two32 -> arm_line_means arm32 line (Says (L1 data which (dec_value v)))
| means_board : forall line v, key_value line (text "Hardware") v -> length v <> 64%nat ->
    arm_line_means arm32 line (Board v)
| means_board_revision : forall line v, key_value line (text "Revision") v -> length v <> 9%nat ->
    arm_line_means arm32 line (BoardRevision v)
| means_nothing : forall line,
    (forall k v, key_value line k v -> ~ In k plain_keys /\ (arm32 = true -> forall data which, k <> cache_key data which)) ->
    arm_line_means arm32 line Nothing.

(** What the file says about [cpu]: the lines from each announcement of it to the next
    announcement.  Processor 0 is current before any announcement. *)
Fixpoint told (ms : list arm_meaning) (current cpu : N) : list said :=
  match ms with
  | [] => []
  | Announces n :: r => (if n =? cpu then [Named] else []) ++ told r n cpu
  | Says s :: r => (if current =? cpu then [s] else []) ++ told r current cpu
  | _ :: r => told r current cpu
  end.

(** The last answer to a question, if any. *)
Fixpoint last_said {A} (question : said -> option A) (l : list said) (before : A) : A :=
  match l with
  | [] => before
  | s :: r => last_said question r (match question s with Some a => a | None => before end)
  end.

Definition field_said (f : midr_field) (s : said) : option N :=
  match s with
  | Field g v =>
      match f, g with
      | Implementer, Implementer | Variant, Variant | PartNumber, PartNumber | Revision, Revision => Some v
      | _, _ => None
      end
  | _ => None
  end.
Definition version_said (s : said) : option N := match s with Arch v _ => Some v | _ => None end.
Definition cache_said (data : bool) (which : cache_number) (s : said) : option N :=
  match s with
  | L1 d w n =>
      if Bool.eqb d data then
        match w, which with
        | CacheSize, CacheSize | CacheWays, CacheWays | CacheLine, CacheLine | CacheSets, CacheSets => Some n
        | _, _ => None
        end
      else None
  | _ => None
  end.

(** The architecture code in bits 19-16 of the main id register: 7 for ARMv6, 6 for
    ARMv5TEJ, 5 for ARMv5TE, 4 for ARMv5T, 15 for everything later. *)
Definition architecture_code (arm32 : bool) (version : N) (t e j : bool) : N :=
  if arm32 then
    if version =? 6 then 7 else if version =? 5 then if t && e && j then 6 else if t && e then 5 else 4 else 15
  else 15.

(** The order in which the kernel numbers the capability bits
    (arch/arm/include/uapi/asm/hwcap.h, arch/arm64/include/uapi/asm/hwcap.h):
    the name in position [b] is bit [b]. *)
Definition kernel_names (arm32 second : bool) : list (list N) :=
  List.map text
  match arm32, second with
  | true, false => ["swp"; "half"; "thumb"; "26bit"; "fastmult"; "fpa"; "vfp"; "edsp"; "java"; "iwmmxt"; "crunch";
      "thumbee"; "neon"; "vfpv3"; "vfpv3d16"; "tls"; "vfpv4"; "idiva"; "idivt"; "vfpd32"; "lpae"; "evtstrm"]
  | true, true => ["aes"; "pmull"; "sha1"; "sha2"; "crc32"]
  | false, false => ["fp"; "asimd"; "evtstrm"; "aes"; "pmull"; "sha1"; "sha2"; "crc32"; "atomics"; "fphp"; "asimdhp";
      "cpuid"; "asimdrdm"; "jscvt"; "fcma"; "lrcpc"; "dcpop"; "sha3"; "sm3"; "sm4"; "asimddp"; "sha512"; "sve";
      "asimdfhm"; "dit"; "uscat"; "ilrcpc"; "flagm"; "ssbs"; "sb"; "paca"; "pacg"]
  | false, true => ["dcpodp"; "sve2"; "sveaes"; "svepmull"; "svebitperm"; "svesha3"; "svesm4"; "flagm2"; "frint";
      "svei8mm"; "svef32mm"; "svef64mm"; "svebf16"; "i8mm"; "bf16"; "dgh"; "rng"; "bti"]
  end%string.
(** Names the ARM64 parser does not know (it takes these capabilities from the
    auxiliary vector instead). *)
Definition skipped64 : list (list N) :=
  List.map text ["dcpop"; "sha3"; "sm3"; "sm4"; "asimddp"; "sha512"; "sve"; "dit"; "uscat"; "ilrcpc"; "flagm"; "ssbs";
    "sb"; "paca"; "pacg"; "dcpodp"; "sve2"; "sveaes"; "svepmull"; "svebitperm"; "svesha3"; "svesm4"; "flagm2"; "frint";
    "svei8mm"; "svef32mm"; "svef64mm"; "svebf16"; "bf16"; "dgh"; "rng"; "bti"]%string.
(** Some kernels misspell two names to 32-bit programs. *)
Definition misspelt : list (list N * list N) := [(text "wp", text "swp"); (text "tlsi", text "tls")].

(** The word stands for bit [b] of the first or second capability word. *)
Definition stands_for (arm32 second : bool) (word : list N) (b : nat) : Prop :=
  exists name, nth_error (kernel_names arm32 second) b = Some name /\
    (name = word \/ (arm32 = true /\ In (word, name) misspelt)) /\ (arm32 = false -> ~ In name skipped64).

(** The flag bits that record what was said. *)
Definition field_flag (f : midr_field) : N :=
  match f with Architecture => 16 | Implementer => 17 | Variant => 18 | PartNumber => 19 | Revision => 20 end.
Definition cache_flag (data : bool) (which : cache_number) : N :=
  (if data then 28 else 24) + match which with CacheSize => 0 | CacheSets => 1 | CacheWays => 2 | CacheLine => 3 end.
Definition records (s : said) (b : N) : Prop :=
  b = 21 \/
  match s with
  | Named => False
  | Field f _ => b = field_flag f
  | Arch _ _ => b = 16
  | Feats _ => b = 22
  | L1 data which _ => b = cache_flag data which
  end.

(** The Hardware or Revision value that counts, and what the array then holds. *)
Definition board_said (m : arm_meaning) : option (list N) := match m with Board v => Some v | _ => None end.
Definition board_revision_said (m : arm_meaning) : option (list N) := match m with BoardRevision v => Some v | _ => None end.
Fixpoint last_text (question : arm_meaning -> option (list N)) (ms : list arm_meaning) (before : option (list N))
  : option (list N) :=
  match ms with
  | [] => before
  | m :: r => last_text question r (match question m with Some v => Some v | None => before end)
  end.
(** The array holds the C string [v]. *)
Definition holds_string (buf : list (option N)) (v : list N) : Prop :=
  (forall i c, nth_error v i = Some c -> nth_error buf i = Some (Some c)) /\ nth_error buf (length v) = Some (Some 0).

(** A number of the first-level caches in a processor record. *)
Definition l1_value (data : bool) (which : cache_number) (r : areport) : N :=
  let c := if data then ar_dcache r else ar_icache r in
  match which with CacheSize => lr_size c | CacheWays => lr_assoc c | CacheLine => lr_line c | CacheSets => lr_sets c end.

(** A line for which the parser writes beyond the array. *)
Definition overruns (line : list N) : Prop :=
  exists v, (key_value line (text "Hardware") v /\ length v = 64%nat) \/
            (key_value line (text "Revision") v /\ length v = 9%nat).

(** The block the kernel prints for a processor with main id register [m]. *)
Definition kernel_block (version cpu m : N) (names : list (list N)) : list arm_meaning :=
  [Announces cpu; Says (Feats names); Says (Field Implementer (field_of Implementer m)); Says (Arch version []);
   Says (Field Variant (field_of Variant m)); Says (Field PartNumber (field_of PartNumber m));
   Says (Field Revision (field_of Revision m))].
(** The lines that concern processors. *)
Definition about_processors (m : arm_meaning) : bool := match m with Announces _ | Says _ => true | _ => false end.
