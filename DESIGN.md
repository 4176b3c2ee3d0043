# Formal model of infobloxopen/go-trees in Rocq (Coq 8.16.1)

## 1. Approach

The repository is a set of pointer data structures with copy-on-write and in-place
updates. In a purely functional model "the old tree does not see the change" would hold by
construction. So the model is a **memory model**: every Go function is a small program
(type `prog`, file `Prog.v`) over an explicit memory, with `Alloc`, `Load`, `Store` and
`Fail` (run-time panic) instructions. Go control flow (loops over `gp, g, p, n` pointers,
colour copies, rotations, recursion, early returns) is kept statement by statement; each
definition of a model file cites the lines it models.

* `run` executes a program with a simple allocator (used in examples and `_refuted` witnesses).
* `wp P h W Q` is the judgement of total correctness: for every choice of fresh addresses,
  `P` started in memory `h` ends without panic, **stores only to addresses in `W` or to
  addresses it allocated itself**, and ends in a state satisfying `Q`. `wp_run` ties it to
  `run`. With `W = ∅` it is the copy-on-write claim: no existing cell is written.
* `fails P h e`: the program panics with `e`, whatever the allocator does.

Between the memory model and the specifications sits, per data structure, a functional
model that is a proof device only: red-black trees with a zipper (`RbFun`), radix trees
(`NumFun`), nested label trees (`DtFun`). Programs refine the functional model, which
meets the specification. `Opaque.v` shows that iptree's programs do not look at the values they store:
they run alike on values that carry more information, such as the call that stored them (C69).

The main theorems are about client **histories**: an arbitrary list of API calls, each on an
arbitrary earlier version of the tree (`History.v`). Their answers are those of a
specification in which versions are immutable maps or logs of changes. `Handle.v` adds
clients that mix in-place and copy-on-write calls on one tree; `Concurrent.v` runs any
number of programs interleaved at single memory accesses; `astep` in `ApartProofs.v` does so
with one goroutine that writes and others that read; `Channel.v` models goroutines
that send on an unbuffered channel. `CostSpec.v` counts the memory accesses of a call; loops
carry fuel, and `Cost.v` shows that the counts do not depend on it.

## 2. Files

| files | content |
|---|---|
| `Prog.v` | memory, programs, `run`, `wp`, `fails` |
| `RbModel.v`, `DlModel.v`, `DomModel.v`, `DtModel.v`, `NumModel.v`, `IpModel.v`, `UxModel.v`, `DotModel.v`, `DotText.v`, `ChanModel.v`, `ChanUpdModel.v`, `SliceModel.v`, `EtcModel.v` | the models of the code |
| `RbSpec.v`, `StrSpec.v`, `DlSpec.v`, `DomSpec.v`, `DtSpec.v`, `NumSpec.v`, `NumNavSpec.v`, `IpSpec.v`, `IpUpdSpec.v`, `UxSpec.v`, `DotSpec.v`, `DotTextSpec.v`, `DtOwnSpec.v`, `CostSpec.v`, `ZeroSpec.v`, `SliceSpec.v`, `EtcSpec.v`, `CallSpec.v`, `WorkSpec.v`, `ShareSpec.v`, `VersSpec.v`, `IpVersSpec.v`, `UxVersSpec.v`, `IpAllSpec.v`, `IpDeriveSpec.v`, `StaleSpec.v`, `StampSpec.v`, `IpStampSpec.v`, `UxStampSpec.v`, `IpRenewSpec.v`, `HandleSpec.v`, `LoopSpec.v`, `ApartSpec.v`, `WatchSpec.v` | the specifications; they use no function of the models except codecs named in the statements and the label comparison |
| `History.v`, `Handle.v`, `Concurrent.v`, `Gor.v`, `Channel.v` | clients, schedules, channels (the client of C83 is at the start of `HandleProofs.v`, the loop of C84 at that of `LoopProofs.v`, the interleaving of C85 and C86 at that of `ApartProofs.v`) |
| `Properties_*.v` | the property theorems (names `Cnn_…`), each followed by `Print Assumptions`, with concrete cases that meet the hypotheses |
| `ReplayText.v`, `Replay_*.v` | the unit tests of the repository run on the models (section 6) |
| all others | proofs |

## 3. Trusted base

* Coq's kernel. No kernel check is switched off; no axioms, parameters or admitted proofs are used;
  no functors or module types are defined.
* `Print Assumptions` prints "Closed under the global context" for **every** property theorem.
  (`coqchk` on the whole development additionally lists the constants of the module type
  `Coq.ssr.ssrunder.Under_rel` of the standard library: `Under_rel`, `Under_rel_from_rel`, `Under_relE`,
  `over_rel`, `over_rel_done`, `Over_rel`, `under_rel_done`. They come in with ssreflect, which std++
  loads. No theorem depends on them.)
* Libraries: Coq's standard library and std++ (finite maps, lists, tactics).
* The models are hand-written readings of the Go source at the pinned commit. What is and what is
  not in them is listed next. That the model is what Go does is trusted, not proved; it was tested by
  running the unit tests of the repository on the models (section 6).

### Modelled

| package | modelled |
|---|---|
| strtree | everything in node.go and strtree.go; comparison functions are arbitrary pure functions (or nil) |
| dltree | everything in node.go and dltree.go |
| domain | everything in label.go and name.go |
| domaintree | everything |
| numtree | everything in node32.go and node64.go: one model, parametric in the width (32 or 64), where the two files were compared line by line; the mask tables are copied from the code |
| iptree | everything, including UpdateDescendants with a stateful callback, which may look up and enumerate the tree (C67), work on other trees (C68), and make new versions of any tree and update any version, also of the tree that is being updated (C77, with the goroutines C78). In-place insertion by the callback is left out: it races with the goroutine that lists the nodes (`C78_inplace_refuted`) |
| uintX/strtreeN, domaintreeN, numtree parts of iptreeN | textually the same algorithms as above with another value type (checked by diff); covered by the parametric value type |
| etc | names.go, `sel` of data.go, `execute` of main.go as the list of what it creates. Functional, not a memory model. Templates (text/template) are parameters; `load`, flags and log messages are left out |
| uintX/iptreeN | own model (`UxModel.v`) of iptree.go, node64.go/node64s.go use |

### Simplifications (also stated at each definition)

* Go strings and byte slices are `list byte`, copied by value. For the slices in the keys that iptree
  and iptreeN hand out this is proved harmless: `SliceModel.v` has them with their arrays (C65). Arguments
  are read before a call returns and not kept; domain and the trees over it keep strings only. uint8/uint32/uint64 are `N` with
  the wrap-around written where it can occur; `int` is `Z` (no overflow: lengths are small).
* `interface{}` values are an arbitrary type `U` or one of the two kinds the library itself
  stores (subTree64, *domaintree.Node). A user value is never one of these two: in iptree the
  hypothesis `plain` says so. A user who could store a subTree64 would need the unexported type.
* Loops and recursion have fuel. Running out of it is the error `EFuel`; `wp` excludes it and the
  theorems give the fuel that suffices (`enough`), which for lookups is the stated bound on
  comparisons.
* A struct is one memory cell: loads and stores are of whole structs. For sequential programs this
  makes no difference. For interleavings (C50) it is justified by the absence of races, which is
  part of what is proved.
* Enumerate is modelled twice: as the list of pairs sent (all files but `Chan*.v`), and as a
  goroutine with an unbuffered channel (`ChanModel.v`, C51), where it is proved that the pairs
  received are that list.
* UpdateDescendants writes while the goroutine it receives from is reading. `IpModel.v` collects the nodes first;
  `ChanUpdModel.v` has both interleaved and C64 proves that it makes no difference. Struct-sized accesses are
  harmless there: the sender's code is the same for nodes that differ in Value only (`blind`), the receiver
  changes nothing but Value (`like`). `ChanDeriveModel.v` has the same for callbacks that make versions and
  update trees themselves, with a goroutine for every update under way; C78 shows that these end as C77 says,
  and that no write of the client is to a field that a goroutine is about to read. Enumerate calls of the
  callback itself are read at once there.
* Concurrency: sequentially consistent interleaving; publishing a tree to another goroutine is
  assumed to be synchronised by the client, as the Go memory model requires.
* Package net: `IP.To4`, `IP.To16`, `IPMask.Size`, `CIDRMask`, `IP.Mask` are modelled from the Go
  standard library as described in its documentation and source; encoding of addresses likewise.
* Packages path, path/filepath (Unix) and strings: `Clean`, `Split`, `Join`, `Abs`, `Base`, `SplitN` are modelled from
  documentation and source; `Clean` works on components instead of bytes. A directory of etc is listed as it was
  before the program started.
* Packages fmt and strconv: %d, %08x, %016x and %q (strconv.Quote, UTF-8 decoding) are modelled from documentation and
  source (`DotText.v`). `DotModel.v` has Dot as a list of lines; C66 turns them into text.
* Package reflect: the values MakeNameFromReflection can distinguish (string, Name, pointer to
  either, nil pointer, anything else).
* Memory is unbounded; running out of memory or stack is not modelled.

### Not modelled

* What the verb %#v of package fmt prints, and which characters strconv takes for printable: arbitrary
  functions (`gosyntax`, `is_print` in `DotText.v`). The Dot methods of the unexported types in uintX, which nothing calls.
* The texts of errors and panics: they are error codes.
* etc: errors of the file system, YAML decoding, text/template. `*_test.go`, timing (the number of memory accesses and allocations of a call is bounded in C57).

## 4. Where the code disagrees with an expectation

Each of these is proved of the model with a concrete witness (`…_refuted`) or exactly characterised.

* domaintree.InplaceInsert panics (nil dereference) on trees made by Insert: Insert leaves
  `branches` nil (C30). Exactly when, for trees made by any mix of calls: C56.
* domaintree.Delete and DeleteSubdomains panic with an index out of range for stored names of 127
  labels (C28); the value of the root name is stored but Get never returns it (C24).
* uintX iptreeN.DeleteByNet ignores an IPv6 prefix shorter than 64 bits that is not itself stored,
  although there are stored networks inside it (C49).
* iptree.UpdateDescendants accepts targets that are not stored, inside one IPv6 /64, if the radix
  tree happens to have an inner node there (C47); on a nil tree it panics.
* In-place calls change other versions that share nodes (C46, C47) and race with readers (C50). For
  UpdateDescendants, C69 says what can change there, C82 exactly what does (after b := a.InsertNet(p), an
  update of b shows in a at the networks that do not contain p and not at the others), and C70 what
  follows for all later calls. For
  InplaceInsert, a version of a radix tree (C71) or of an iptree (C72) gets all of the insertion or
  nothing of it, also when updates are mixed in (C73); C79 (radix trees) and C80 (iptree) say exactly which versions get it;
  writing Value of a node that FindNode returned or Enumerate sent earlier reaches versions likewise (C83), also in a loop over Enumerate under every schedule (C84);
  versions that such a change does not reach can be read at the same time without a race (C85), also by goroutines that make many reads while the client makes many calls (C86);
  versions made by a callback in the middle of an
  update see the rest of it where they share nodes with the tree (C77). If the callback inserts in place into
  the tree that is being updated, the schedule decides whether it is called for the new network (`C78_inplace_refuted`). A version of a tree of uintX/iptree
  behaves likewise (C76), but there storing an IPv6 network shorter than 64 bits again shows in more versions than it does
  in iptree; C81 says exactly in which (`C81_overwrite`, `ux_overwrite_run` against `ux_overwrite_iptree`). A version of a strtree can lose keys that have
  nothing to do with the insertion (C71).
* Sharing of red-black trees (C74). If only the latest version of a strtree or dltree is changed in
  place, older versions can still be read: no panic, no endless loop, but keys may be missing, listed
  twice or out of order. Copying Insert into such an older version can panic with a nil dereference
  (`C74_insert_refuted`). Once two versions have been changed in place, InplaceInsert can panic
  (`C74_inplace_refuted`) and Get can loop for ever (`C74_get_refuted`). domaintree panics likewise
  (`C74_domaintree_refuted`).
* A consumer that stops reading an Enumerate channel leaves the goroutine blocked for ever (C51).
* dltree: text that is no valid label is taken for the empty label; MakeLabel panics on a dot inside
  and MakeHumanReadableLabel on labels above 63 bytes (C13-C15, C17).
* A strtree without comparison function (the zero Tree) works until it holds a key, then panics (C58); if
  cmp(k, k) is not 0 inserting k loops for ever, growing the tree, unless it is found or the tree is empty (C59).
* etc: data under a key that contains a dot cannot be selected, and a selector that ends with a dot is accepted
  only for maps (C61); the program stops at a file or directory whose absolute name has nothing to replace,
  after having created what precedes it (C62).
* strtree.Delete and dltree.Delete allocate a new tree object even if nothing was deleted (C04).

## 5. How theorems were tested

`seeded/LOG.jsonl` has one line per seeded bug: the definition edited in a scratch copy, the edit, the
claim it breaks, the theorems that then failed to prove and the theorems tightened as a result.
A failing lemma was turned into an axiom *in the scratch copy only*, so that everything
depending on it could be recorded as failed.

## 6. How the models were tested

The unit tests of the repository pass on the code. `tools/replay.py` translates them to Coq
(`Replay_*.v`, examples by `vm_compute`): strtree, dltree, domaintree, numtree (32 and 64 bits), the
table of iptree's UpdateDescendants, and strtree8 and domaintree8 of uintX; the other iptree tests,
iptree8, domain and the paths of etc were translated by hand (`tools/*.in`, `Replay_domain.v`). All of
them pass on the models. They compare complete Graphviz dumps, so the shape of the trees and the
colours of their nodes are compared, not only what lookups return. These are tests on literals and
no evidence for any property; they are evidence that the models are what the code is. Not translated:
benchmarks, the node and label tree tests of uintX (the same code as numtree and dltree), the other
sizes of uintX (the same text).
