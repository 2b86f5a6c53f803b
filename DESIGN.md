# Formal model of cwahn/efp in Rocq (Coq 8.16.1)

`properties.jsonl` lists the properties, `MANIFEST.json` maps each to the
theorems that settle it. The development lives in `rocq/theories`:

| directory | content |
|-----------|---------|
| `Base/`   | outcome monad, element cells, heap, generic lemmas |
| `Model/`  | the code, function by function, each definition citing `/repo` lines |
| `Spec/`   | small independent specifications (plain lists, sums, orders, ...) |
| `Proofs/` | invariants and refinement proofs |
| `Properties/` | the property theorems: `Theorem ... exact lemma.`, one non-vacuity `Example` each and `Print Assumptions` |

## How C++ is modelled

* **Outcomes.** A model function returns `res A`: `Ok a`, `Throw` (the code throws),
  `UB k` (undefined behaviour of kind `k`: out-of-bounds access, read of an
  unconstructed or indeterminate cell, use of a destroyed object, use of a freed
  block, null or indeterminate pointer, bad free) or `Diverge` (fuel exhausted).
  Every positive theorem concludes `= Ok ...`, so it excludes the other three.
* **Elements.** Storage is a list of cells, each `Raw` or `Live v`. An element type is
  described by its value type, whether it is trivial (C++ trivially
  copyable/destructible), and its moved-from function `mv`, which is
  universally quantified: a moved-from object is live and holds `mv v`.
  For a trivial type, destroying is a no-op and assigning to a raw cell is fine; for a
  class type both are UB on a raw cell. Reading a raw cell is always UB.
* **Leaks.** The heap counts live class-type objects whose storage is overwritten by
  placement-new or released without destruction.
* **size_t** is `nat` in the container models; wrap-around is written out where the code
  depends on it (`low - 1` in `partition_by`, `end - start` in `slice`, lag arithmetic).
  `SIZE_MAX`-sized containers are outside the model.
* **References** that may alias container storage are modelled as
  (block, offset) pointers where the property is about aliasing.
* **Callables** with side effects are modelled as state transformers over an arbitrary
  state type, so "called once per element in this order" is part of the statement.
* **Templates** over element type, size and arity become quantification over types, `nat`s
  and lists. Overload resolution and SFINAE are not modelled beyond what is stated in the
  individual model comments.
* **Floating point** in `numeric.hpp`/`scientific.hpp` is modelled by Coq's reals (exact
  arithmetic), and from C154 on also with rounding; integers by `Z` with explicit ranges.
* **Threads**: interleaving semantics, one atomic step per lock/unlock/wait/notify/queue
  access, all schedules and spurious wake-ups. Weak memory is not modelled: all shared
  accesses that are not under the mutex are reported as races instead.

When the code does not satisfy a property, the theorem is named `..._refuted` and
exhibits a concrete execution of the faithful model that violates it; the domain on which the
property does hold is proved next to it.

## Plan per property

* **C01-C09 sorting** (`sort.hpp`): arrays as lists with checked access; loops by structural recursion
  or fuel that is proved sufficient. Sortedness, permutation, stability by loop invariants. C06 is refuted
  by a 33-element vector (the early exit of `timsort_merge` is inverted), C07 is the exact
  characterisation, C09 is refuted (ties are taken from the right half).
* **C10-C17 cyclic buffers** (`cyclic.hpp`): mirror buffer of 2n cells, read/write cursors as offsets.
  Invariant: both mirror halves agree on live slots. Simulation with a bounded list queue, by induction on histories.
  C12, C15 (Vcq), C16 are refuted by concrete histories.
* **C18-C25 Vector** (`sequence.hpp`): heap blocks, pointer null/indeterminate/valid. Simulation with lists.
  C20 (never allocated source), C21, C23, C24 refuted, remaining parts proved.
* **C26-C30 ArrVec, Array, views**: inline storage as a block of cells. C28 refuted.
* **C31-C35 String**: Vector of trivial chars. C32, C33, C34 refuted, with proved domains.
* **C36-C52 prelude**: sequences as lists tagged with their container kind; result container built through
  the container models (resize+assign or push_back), type-level capacity arithmetic as `nat` functions.
  C39 and C44 refuted.
* **C53-C60 Enum, Maybe, Tuple**: tagged union storage; C54 refuted.
* **C61-C66 numeric, scientific**: `Z` and `R`. C61 refuted for floating point.
* **C67-C73 concurrency**: labelled transition system, invariants over all reachable states. C71, C72 refuted.
* **C74-C77 File**: FILE as byte list with position; C76, C77 refuted.
* **C78 func_ptr**: static slot per callable type; refuted.
* **C79, C108 integers as text** (`fmt/format.h`): unsigned arithmetic on `Z` with ranges; digit counting by
  table proved equal to the number of decimal digits by a bound on every table entry.
* **C80-C81, C119-C123 format strings** (`fmt/core.h`, `fmt/format.h`, `format.hpp`): the parser is modelled as a
  cursor over a byte list, every read bounds-checked, recursion on fuel. `Spec/TemplateSpec.v` is a grammar (items,
  fields, specs) with the text each item shows; the theorems say vformat of the written template is that text.
* **C82-C94 aliasing, lifetimes and exceptions of the containers, String and Enum**: same models as C10-C60, with
  the argument a pointer into the container's own storage, or a copy constructor that throws. Mostly refuted; the
  domain where each holds is proved.
* **C95-C103 numeric edge cases**: lags, epsilon comparison, integer overflow, mixed-type clamp, compile-time
  folds. `Z` with the promotion and wrap-around rules, reals for the statistics.
* **C104-C105 DoubleBuffer**: same transition system as C67-C73.
* **C106-C107 File**: same model as C74-C77; a null FILE pointer passed to the C library is undefined behaviour.
* **C109-C113 UTF-8 and debug text**: the branch-free decoder on 4-byte windows (reading past the end of the
  buffer is `UB`), compared with the table of the Unicode standard in `Spec/`.
* **C114-C118 fields**: sign, prefix, grouping, padding and alignment, compared with `Spec/FieldSpec.v`.

Properties appended later are described at the end of this file, in the order they were added.

## What is modelled

| header | modelled | not modelled |
|--------|----------|--------------|
| `sort.hpp` | all sorts and `timsort_merge` | - |
| `cyclic.hpp` | Vcb, Vcq: construction, copy, move, push, pop, indexing | iterators beyond begin/end ranges |
| `sequence.hpp` | Array, ArrVec, Vector, views: construction, assignment, resize, reserve, push, insert, erase, pop, equality | stream output |
| `string.hpp` | String, StringView: construction, append, insert, assign, substr, find, comparison, c_str | the iterator constructor of BasicString (does not compile) |
| `prelude.hpp` | map, filter, fold, zip, slicing, append, concat, cartesian product, find, element queries | overload resolution, SFINAE |
| `enum.hpp`, `maybe.hpp` | Enum storage, construction, assignment, destruction, match; Maybe; Tuple | `move() const` of Enum (does not compile), user-defined conversions in `match` |
| `meta.hpp`, `numeric.hpp`, `scientific.hpp` | folds, min/max/clamp, swap, sums, statistics, in exact reals and, from C154 on, in IEEE arithmetic | IEEE rounding of autocovariance and of the regressions with an index; type traits; that `clamp` returns a reference |
| `concurrency.hpp` | Mutex-protected queues, DoubleBuffer, Spinlock-like use of atomics | weak memory (unsynchronised accesses are reported as races) |
| `io.hpp` | File: open, read, write, seek, tell, move, close | stdio buffering, text-mode translation |
| `func_ptr`, `format.hpp` | all | nested sequence formatting (does not compile) |
| `fmt/core.h`, `fmt/format.h`, `fmt/format-inl.h` | format-string parsing, specs, integers up to 64 bits, bool, char, strings, C strings, pointers, format_int, error messages, the conversions between UTF-8, UTF-16 and UTF-32, join, ranges, debug text, UTF-8 decoding, locale grouping, the check of format strings at compile time, the output buffers, print and println; float and double as listed at the end | 128-bit integers, long double, wchar_t, Windows consoles, `to_string` of integers (does not compile: it needs the iterator constructor of BasicString), memory exhaustion for huge widths, overflow of the automatic index after 2^31 fields |
| `allocator.hpp`, `trait.hpp`, `cpp_core.hpp`, `c_utility.hpp` | the rules of cells and blocks in `Base/Mem.v` | the type-level part |

Undefined-behaviour kinds also include signed `Overflow` and `StreamOrder` (a read directly after a write, or the
reverse, on a `FILE` without repositioning).

## Trusted base

* Coq 8.16.1's kernel (with `vm_compute`), and `coqchk`, which re-checks every compiled file.
* `Print Assumptions` is run on every property theorem in `Properties/*.v`. All are "Closed under the global
  context" except the theorems of `Properties/Scientific.v`, which use the reals of the standard library:
  `ClassicalDedekindReals.sig_forall_dec`, `ClassicalDedekindReals.sig_not_dec`,
  `FunctionalExtensionality.functional_extensionality_dep`; and those of `Properties/Ieee.v`, which use the same and
  `Classical_Prop.classic` (through Flocq).
* `coqchk` prints, for the whole development, besides those: the opaque symbols
  `RbaseSymbolsImpl.*`, `RinvImpl.*` of the same library, and the seven `Coq.ssr.ssrunder.Under_rel.*` items of the
  ssreflect library that std++ loads. No theorem here uses the latter.
* std++ provides lists, finite maps and tactics; Flocq provides binary floating-point formats, their operations and
  theorems on their rounding. Neither adds axioms.
* That the definitions in `Model/` are what the cited lines of `/repo` do: this is by reading, and is helped by the
  seeded faults in `seeded/LOG.jsonl`.

## Later additions

* **C124-C125 shortest decimals** (`fmt/format-inl.h`, namespace `dragonbox`): the algorithm with its tables of
  cached powers of ten, for float and double, on the bits of the number. `Spec/FloatSpec.v` says what the bits stand
  for, what it means to read a decimal (nearest, ties to even) and what the shortest decimal is, over the rationals
  of the standard library. The proof has three parts. `DragonboxCore`/`DragonboxRegular` prove the algorithm for
  any exact scaling of the interval. `Farey` shows that multiplying by a cached power that is slightly too large gives
  the same integer parts as the exact power for all significands, given two neighbouring fractions as a certificate.
  `DragonboxTables` checks one certificate per binary exponent (2046 and 254 of them, in `DragonboxCerts`, found by a
  program that is not trusted) and the powers of two one by one; these checks run in the kernel by `vm_compute`.
* **C126-C129 the text of floating-point numbers** (`fmt/format.h`: `write`, `do_write_float`, `write_significand`,
  `write_exponent`, `write_nonfinite`): `Model/FloatLayout.v` writes significands as the code does, from the end of a
  buffer two digits at a time with the point in between. `Spec/FloatText.v` says which text a decimal has and, apart
  from that, which decimal a text stands for. The proofs go branch by branch through the layouts; that 17 (9) digits
  suffice is proved from the definition of the shortest decimal, by rounding the number to 17 (9) digits.
* **C130-C137 floating-point numbers in a field** (`fmt/format.h`: `format_float`, `format_dragon`, `bigint`,
  `format_hexfloat`, `write_float` with specs):
  `Model/Bigint.v` has the big integers as lists of 32-bit digits with every carry, `Model/FloatDigits.v` the digit
  generation with a table of powers of ten for the first digits and the big integers as the fallback, and
  `write_float`. Not modelled: long double, `float_format` of other types. `Spec/FloatRound.v` and
  `Spec/FloatField.v` say what rounding is and what text a rounded number has. `DigitsTables` checks by `vm_compute`, for
  each exponent, that the digits that come from the table are those of the exact number, from certificates in
  `DigitsCerts`; `DragonProofs` proves the long division; `FloatDigitsProofs` puts both together for every precision.
  Where the code leaves zeros out (precisions above 767) the full claim is refuted and what holds is proved.
* **C138-C141 floating-point numbers in format strings** (`fmt/core.h`: `parse_presentation_type`,
  `check_float_type_spec`/`parse_float_type_spec`; `fmt/format.h`: `arg_formatter`, `write` of `float`/`double`): the
  type letters a A e E f F g G, the admission of sign, `#`, `0` and precision, and floats and doubles as arguments, as
  elements of sequences and of joins are now in `Model/FormatSpecs.v` and `Model/Format.v`. `Spec/FloatField.v` has
  `float_shows`, the text of a number in a field, without reference to the code. `Proofs/FloatFormat.v` joins the two
  models; `Proofs/TemplateProofs.v` takes the text of floating-point numbers as a parameter, so that all properties of
  format strings (C119-C123) now include them. `Proofs/FloatLocal.v` proves that `L` groups the digits before
  the point and replaces the point, for locales whose separator is at most one char and whose point is not the char 0
  (the code takes the char 0 as no point).
* **C142 all format strings** : the converse of C119/C121. `Proofs/TemplateConverse.v` shows, parser by parser, that a
  string that is parsed without an error is one of the grammar of `Spec/FieldSpec.v` and `Spec/TemplateSpec.v`. The
  grammar has the leniencies of the code: a fill as long as its first byte says, a point without a precision
  before a letter, zeros before a precision.
* **C143-C145 the check at compile time** (`fmt/core.h`: `format_string_checker`, `compile_parse_context`,
  `dynamic_spec_id_handler`, `get_arg_index_by_name`): `Model/FormatCheck.v` runs the same parser (`replacement_field`
  of `Model/Format.v` is generic in its handler, as `parse_format_string` is) with the handler of the check.
  `Spec/CheckSpec.v` says which templates are right for a list of types. Not modelled: compilers without
  consteval, GCC before 12, names given at run time. The checks of widths and precisions come after the parse of the
  options and not during it: an error comes either way. C144 is refuted, with the exact set of failing arguments proved.
* **C146-C151 output buffers** (`fmt/core.h`: `buffer`, `iterator_buffer`, `counting_buffer`; `fmt/format.h`:
  `basic_memory_buffer`): `Model/FmtBuffer.v` models each buffer class on the cells and blocks of `Base/Mem.v`, the
  arrays inside of buffer objects being blocks. The writes that `vformat_to` makes are abstracted to any sequence of
  `push_back`, `append`, `reserve` and direct writes; C119 is about their text. `Spec/BufferSpec.v` has the texts that
  a program with several buffers should see, as plain lists. The proofs go by one induction on the writes that is
  shared by all buffer classes, and by an ownership invariant on several memory buffers. Not modelled: failing
  allocation, the maximal size of allocators, memory buffers with other allocators, `copy_str` of ranges of other types.
* **C152-C153 print and println**: `Model/Print.v`. A stream is a list of chars that takes only so many more.
* **C154-C164 statistics in IEEE arithmetic** (`numeric.hpp`, `scientific.hpp`): `Model/Ieee.v` has the same functions as
  `Model/Scientific.v` with the operations of Flocq's `BinarySingleNaN` (round to nearest even, infinities, one NaN),
  for any number of bits and exponent range, so for float and double. `Spec/IeeeSpec.v` says which real number a
  number stands for and what the errors of one rounding are. Assumed: the type of the elements is that of the result,
  no excess precision, no contraction to fused operations, the default rounding mode. Errors of sums are proved by
  induction on the sequence; order and signs by an induction that carries infinities along. Refuted claims have a
  concrete sequence of doubles, evaluated in the kernel, or are refuted for every format.
  Variance and covariance (C162) are compared with the exact ones by shifting the exact sums to the computed means
  (`Proofs/IeeeSpread.v`); roots, quotients and differences (C163, C164) are one rounding each.
* **C165-C166 pointers and C strings** (`fmt/core.h`, `fmt/format.h`): a pointer is a 64-bit address; a C string is an
  address and the chars from there to the end of the array. Both are arguments of the format strings of C119-C123 and
  C142-C145, null C strings included: they fit a field only if it asks for the address. `Properties/Pointers.v` proves that C strings and the
  strings of their chars are formatted alike, by a relation of arguments that what the format string finds, admits and
  shows respects; that null C strings are refused everywhere else follows from C121. Arrays without a 0 are left out of
  the format strings (`scalar_ok`) and refuted separately.
* **C167 format_int** (`fmt/format.h`): the object has a buffer of cells that start without a value, and a pointer into
  the buffer of an object. The proof extends that of `format_decimal` to buffers that are longer than the digits.
* **C168-C170 error messages** (`fmt/format-inl.h`, `fmt/format.h`): format_error_code on top of the model of format
  strings, with its size_t arithmetic and its assertion; what `std::system_error` says is a parameter, as are the failures
  of the library. C170 follows the writes to a memory buffer by induction as long as they find room in its array.
* **C171-C174 UTF-8, UTF-16 and UTF-32** (`fmt/format.h`, `fmt/format-inl.h`): the constructors of utf8_to_utf16 and to_utf8 as
  functions on lists of units, with RFC 2781 as the specification (`Spec/Utf16Spec.v`). Induction on the code points, or on the pieces
  any units fall into. A surrogate pair is decoded but not written: C172 and C173 are refuted, as is C174, and what is written is proved exactly.
  C174 is about one converter for several texts. Not modelled: the memory of the buffers (C146, C170).
