{"id": "C01", "title": "strtree: a tree behaves as a finite map", "statement": "Starting from a new tree with any lawful comparator, after any sequence of Insert/Delete calls on any earlier version, Get(k) on a version returns exactly the value most recently inserted into that version's lineage under a key that compares equal to k and not deleted since; otherwise (nil,false).", "quantifier": "all comparators that are total preorders, all operation histories over all versions, all keys and values", "why_tests_cant": "a test exercises a handful of literal histories; the claim ranges over every history and comparator", "anchors": ["strtree/strtree.go: Insert, Delete, Get", "strtree/node.go: insert, del, get"]}
{"id": "C02", "title": "strtree: Insert leaves every earlier tree untouched", "statement": "t.Insert(k,v) never writes to any memory cell that existed before the call, so every tree obtained earlier (including t) still gives the same answers to Get/Enumerate/IsEmpty for ever.", "quantifier": "all trees in all heaps, keys, values, comparators", "why_tests_cant": "tests compare a few dumps; a single write to a shared node is visible only on particular shapes (recolour / rotation at a shared node)", "anchors": ["strtree/node.go: insert, fullCopy, colorCopy, single, double"]}
{"id": "C03", "title": "strtree: Delete leaves every earlier tree untouched", "statement": "t.Delete(k) never writes to any memory cell that existed before the call.", "quantifier": "all trees in all heaps, keys, comparators", "why_tests_cant": "deletion rotates siblings and nephews; a missing copy is visible only on particular shapes", "anchors": ["strtree/node.go: del"]}
{"id": "C04", "title": "strtree: Delete removes exactly the given key and reports it truthfully", "statement": "Delete(k) returns true iff some stored key compares equal to k; the resulting tree enumerates to the old content without that key, everything else (keys, values, order) unchanged.", "quantifier": "all reachable trees, keys, comparators", "why_tests_cant": "a test exercises a handful of literal histories; the claim ranges over every history", "anchors": ["strtree/node.go: del", "strtree/strtree.go: Delete"]}
{"id": "C05", "title": "strtree: Enumerate yields the content once, in strictly increasing key order", "statement": "Enumerate yields each stored pair exactly once and keys strictly increase w.r.t. the comparator.", "quantifier": "all reachable trees, comparators", "why_tests_cant": "a test exercises a handful of literal histories; the claim ranges over every history", "anchors": ["strtree/node.go: enumerate"]}
{"id": "C06", "title": "strtree: depth stays logarithmic", "statement": "After any history of Insert/InplaceInsert/Delete the tree is a valid red-black tree, so Get calls the comparator at most 2*log2(n+1) times on n stored keys.", "quantifier": "all histories mixing insertions and deletions, any comparator with compare(k,k)=0", "why_tests_cant": "a test exercises a handful of literal histories; the claim ranges over every history; balance violations appear only on rare shapes", "anchors": ["strtree/node.go: insert, inplaceInsert, del, single, double"]}
{"id": "C07", "title": "strtree: InplaceInsert has the same effect on content as Insert", "statement": "On a tree whose nodes are not shared, InplaceInsert(k,v) produces the same enumeration (and the same tree) as Insert(k,v) would, and writes only to nodes of that tree or new ones.", "quantifier": "all unshared trees, keys, values, comparators", "why_tests_cant": "a test exercises a handful of literal histories; the claim ranges over every history", "anchors": ["strtree/node.go: inplaceInsert", "strtree/strtree.go: InplaceInsert"]}
{"id": "C08", "title": "strtree/dltree: no operation panics or loops", "statement": "Insert, InplaceInsert, Get, Delete, Enumerate terminate without nil dereference on every reachable tree (grand-parent pointers used by rotations are never nil); only compare(k,k)=0 is needed of the comparator.", "quantifier": "all reachable trees, keys, comparators with compare(k,k)=0", "why_tests_cant": "absence of a nil dereference for every shape", "anchors": ["strtree/node.go: insert (gp,g,p), del (g,p,s)"]}
{"id": "C09", "title": "strtree: replacing a value keeps the first stored spelling of the key", "statement": "If Insert(k,v) hits a stored key k' with compare(k',k)=0, the value is replaced and the enumerated key stays k'.", "quantifier": "all trees, comparators identifying distinct strings", "why_tests_cant": "needs every comparator", "anchors": ["strtree/node.go: insert, inplaceInsert"]}
{"id": "C10", "title": "strtree/dltree: deleting a missing key leaves the content unchanged", "statement": "If Delete(k) returns false the returned tree has exactly the content (and enumeration) of the original. (The doc comment of strtree.Delete promises the original tree itself: a new tree object is returned.)", "quantifier": "all trees, missing keys", "why_tests_cant": "the returned tree has been restructured on the way down; shapes are unbounded", "anchors": ["strtree/node.go: del", "strtree/strtree.go: Delete"]}
{"id": "C11", "title": "strtree: IsEmpty is true iff nothing is stored", "statement": "IsEmpty() iff Enumerate yields nothing, for nil, new and every reachable tree.", "quantifier": "all reachable trees", "why_tests_cant": "a test exercises a handful of literal histories; the claim ranges over every history", "anchors": ["strtree/strtree.go: IsEmpty"]}
{"id": "C12", "title": "dltree: raw operations behave as a finite map on binary labels, ordered by length then bytes", "statement": "RawInsert/RawGet/RawDelete/RawEnumerate over any history of versions behave like immutable finite maps keyed by the exact byte string; RawEnumerate is strictly increasing in (length, bytes).", "quantifier": "all histories, all byte strings", "why_tests_cant": "a test exercises a handful of literal histories; the claim ranges over every history", "anchors": ["dltree/node.go", "dltree/dltree.go"]}
{"id": "C13", "title": "dltree: human-readable keys are looked up by canonical label", "statement": "For keys that denote labels, Insert/Get/Delete with s behave as RawInsert/RawGet/RawDelete with the canonical label of s; two spellings of one label (case, escapes, trailing dot) address one entry.", "quantifier": "all trees, all strings that are valid labels", "why_tests_cant": "infinitely many spellings", "anchors": ["dltree/dltree.go: Insert, Get, Delete, InplaceInsert", "domain/label.go: MakeLabel"]}
{"id": "C14", "title": "dltree: an invalid label is not silently stored under another key", "statement": "Insert with a string that is not a valid label should not change what is stored under other keys. (Refuted: the error of MakeLabel is dropped and the value is stored under the empty label, so any two invalid labels collide.)", "quantifier": "all trees and strings", "why_tests_cant": "collision of an arbitrary pair of invalid keys", "anchors": ["dltree/dltree.go: Insert, Get, InplaceInsert, Delete"]}
{"id": "C15", "title": "dltree: Enumerate prints keys that read back", "statement": "For a tree whose keys are canonical labels of at most 63 bytes, Enumerate yields the same values in the same order as RawEnumerate, and each printed key converts back (MakeLabel) to exactly the stored label.", "quantifier": "all trees of canonical labels", "why_tests_cant": "every byte content of labels", "anchors": ["dltree/node.go: enumerate", "domain/label.go: MakeHumanReadableLabel"]}
{"id": "C16", "title": "domain: MakeLabel inverts MakeHumanReadableLabel", "statement": "For every byte string l of at most 63 bytes MakeLabel(MakeHumanReadableLabel(l)) succeeds with l upper-cased (l itself if it holds no lower-case ASCII letters).", "quantifier": "all byte strings up to 63 bytes (arbitrary bytes, dots, backslashes, control bytes)", "why_tests_cant": "256^63 inputs", "anchors": ["domain/label.go: MakeHumanReadableLabel, getLabel"]}
{"id": "C17", "title": "domain: names produced by MakeNameFromString are well formed", "statement": "If MakeNameFromString(s) succeeds, GetLabels visits the labels right to left; each has 1..63 bytes and no ASCII lower-case letter, there are at most 127 of them and lengths plus one per label total at most 255.", "quantifier": "all byte strings", "why_tests_cant": "a test exercises a handful of literal histories; the claim ranges over every history", "anchors": ["domain/name.go: MakeNameFromString, GetLabels", "domain/label.go: markLabels, getLabel"]}
{"id": "C18", "title": "domain: MakeNameFromString never panics", "statement": "For every byte string MakeNameFromString returns a name or one of the five errors; in particular the internal 'unescaped dot' panic is unreachable from it.", "quantifier": "all byte strings", "why_tests_cant": "absence of panic for every input", "anchors": ["domain/name.go: MakeNameFromString", "domain/label.go: getLabel"]}
{"id": "C19", "title": "domain: MakeNameFromString accepts exactly the RFC-style names and reads the right labels", "statement": "MakeNameFromString(s) succeeds with labels ls iff s is the dot-separated sequence (optionally dot-terminated) of escaped spellings of ls reversed, within the limits; each error is returned only when its condition holds.", "quantifier": "all byte strings", "why_tests_cant": "needs an independent grammar of the whole input space", "anchors": ["domain/name.go: MakeNameFromString", "domain/label.go: markLabels, getLabel"]}
{"id": "C20", "title": "domain: names are case-insensitive", "statement": "Two strings differing only in the case of ASCII letters are both accepted or both rejected with the same error and denote the same labels.", "quantifier": "all pairs of byte strings", "why_tests_cant": "all inputs", "anchors": ["domain/label.go: getLabel, markLabels"]}
{"id": "C21", "title": "domain: GetLabel offsets walk the same labels as GetLabels", "statement": "For every name made by MakeNameFromString iterating GetLabel from offset 0 until it returns offset 0 visits exactly the labels passed by GetLabels, in the same order; any offset outside the name gives (\"\",-1).", "quantifier": "all names, all offsets", "why_tests_cant": "a test exercises a handful of literal histories; the claim ranges over every history", "anchors": ["domain/name.go: GetLabel, GetLabels"]}
{"id": "C22", "title": "domain: MakeHumanReadableLabel is total", "statement": "MakeHumanReadableLabel never panics and never exceeds 252 bytes. (Refuted for upper-case input longer than 252 bytes: that branch lacks the bounds check of the others. Proved: no panic for inputs of at most 63 bytes; exact characterisation otherwise.)", "quantifier": "all byte strings", "why_tests_cant": "only long inputs ending in one particular branch fail", "anchors": ["domain/label.go: MakeHumanReadableLabel"]}
{"id": "C23", "title": "domain: MakeLabel panics exactly on an unescaped dot before the last character", "statement": "MakeLabel(s) panics iff the scan reaches an unescaped dot that is not the last byte before hitting another error; otherwise it returns a label of at most 63 bytes or ErrLabelTooLong/ErrInvalidEscape.", "quantifier": "all byte strings", "why_tests_cant": "all inputs", "anchors": ["domain/label.go: MakeLabel, getLabel"]}
{"id": "C24", "title": "domaintree: Get returns the value of the closest enclosing domain", "statement": "Get(d) returns the value stored under the longest suffix (in labels) of d that has a value. (The suffix 'root' is excluded by the code: a value stored for the empty name is never returned: refuted at the root, proved for all non-root suffixes.)", "quantifier": "all histories, all names", "why_tests_cant": "a test exercises a handful of literal histories; the claim ranges over every history", "anchors": ["domaintree/domaintree.go: Get"]}
{"id": "C25", "title": "domaintree: Insert is a persistent map update", "statement": "Insert(d,v) returns a tree which maps d's labels to v and agrees with the old tree on all other names; no memory cell existing before the call is written.", "quantifier": "all trees, names, values", "why_tests_cant": "a test exercises a handful of literal histories; the claim ranges over every history", "anchors": ["domaintree/domaintree.go: Insert, copy"]}
{"id": "C26", "title": "domaintree: Delete removes one name only and reports truthfully", "statement": "Except for stored names of 127 labels (C28), Delete(d) returns true iff d has a value; the new tree has all other names unchanged; old trees are untouched.", "quantifier": "all trees, all names but the stored ones of 127 labels", "why_tests_cant": "a test exercises a handful of literal histories; the claim ranges over every history", "anchors": ["domaintree/domaintree.go: Delete, getBranch, copyBranch"]}
{"id": "C27", "title": "domaintree: DeleteSubdomains removes exactly the name and everything under it", "statement": "Except for stored names of 127 labels (C28), DeleteSubdomains(d) returns true iff d or a subdomain of it has a value; exactly those are removed; old trees are untouched.", "quantifier": "all trees, all names but the stored ones of 127 labels", "why_tests_cant": "a test exercises a handful of literal histories; the claim ranges over every history", "anchors": ["domaintree/domaintree.go: DeleteSubdomains, getBranch, copyBranch"]}
{"id": "C28", "title": "domaintree: Delete/DeleteSubdomains never panic", "statement": "Delete and DeleteSubdomains return for every valid name. (Refuted: for a stored name of 127 labels, the maximum the domain package accepts, getBranch indexes nodes[-1].; a history of calls panics exactly if it makes such a call, and otherwise gives every answer.)", "quantifier": "all names accepted by MakeNameFromString", "why_tests_cant": "only 127-label names fail", "anchors": ["domaintree/domaintree.go: getBranch", "domain/name.go: MaxLabels"]}
{"id": "C29", "title": "domaintree: Enumerate lists every stored name exactly once and keys read back", "statement": "Enumerate yields one pair per stored name; MakeNameFromString of the printed key succeeds and denotes the stored labels; parents come before children.", "quantifier": "all trees", "why_tests_cant": "a test exercises a handful of literal histories; the claim ranges over every history", "anchors": ["domaintree/domaintree.go: enumerate"]}
{"id": "C30", "title": "domaintree: InplaceInsert may follow Insert", "statement": "InplaceInsert on any unshared tree stores the value. (Refuted: a node created by Insert has nil branches; InplaceInsert of a subdomain of it dereferences nil. Proved for trees whose nodes were all created in place.)", "quantifier": "all trees built with any mix of operations", "why_tests_cant": "needs a mixed history", "anchors": ["domaintree/domaintree.go: InplaceInsert, Insert"]}
{"id": "C31", "title": "domaintree: deletion leaves no dead branches", "statement": "After any history, every node except the root has a value or a descendant with a value.", "quantifier": "all histories", "why_tests_cant": "a test exercises a handful of literal histories; the claim ranges over every history", "anchors": ["domaintree/domaintree.go: copyBranch, Delete, DeleteSubdomains"]}
{"id": "C32", "title": "numtree: Match returns the longest stored prefix", "statement": "Match(key,bits) returns the value of the longest stored prefix which contains key/bits and is no longer than bits; (nil,false) if none.", "quantifier": "all histories, keys, bit lengths incl. out of range (clamped)", "why_tests_cant": "a test exercises a handful of literal histories; the claim ranges over every history", "anchors": ["numtree/node32.go: Match, match", "numtree/node64.go: Match, match"]}
{"id": "C33", "title": "numtree: ExactMatch/FindNode are exact", "statement": "ExactMatch(key,bits) returns the value stored for exactly that prefix, independent of key bits beyond bits.", "quantifier": "all histories, keys, bits", "why_tests_cant": "a test exercises a handful of literal histories; the claim ranges over every history", "anchors": ["numtree/node32.go: ExactMatch, FindNode, exactMatch", "numtree/node64.go"]}
{"id": "C34", "title": "numtree: Insert is a persistent map update", "statement": "Insert(key,bits,v) changes only the entry of prefix key/bits; no memory cell existing before the call is written.", "quantifier": "all trees in all heaps, keys, bits, values", "why_tests_cant": "a test exercises a handful of literal histories; the claim ranges over every history", "anchors": ["numtree/node32.go: Insert, insert", "numtree/node64.go"]}
{"id": "C35", "title": "numtree: Delete removes exactly the contained entries and reports truthfully", "statement": "Delete(key,bits) removes exactly the entries contained by key/bits; the flag is true iff there was one; existing cells are not written and when the flag is false the very same tree is returned.", "quantifier": "all trees, keys, bits", "why_tests_cant": "a test exercises a handful of literal histories; the claim ranges over every history", "anchors": ["numtree/node32.go: Delete, del", "numtree/node64.go"]}
{"id": "C36", "title": "numtree: Enumerate yields every entry once in increasing order", "statement": "Enumerate yields each stored entry once, ordered by masked key and then by prefix length.", "quantifier": "all reachable trees", "why_tests_cant": "a test exercises a handful of literal histories; the claim ranges over every history", "anchors": ["numtree/node32.go: enumerate", "numtree/node64.go"]}
{"id": "C37", "title": "numtree: InplaceInsert has the effect of Insert", "statement": "On an unshared tree InplaceInsert produces the same tree as Insert and writes only to that tree's nodes or new ones.", "quantifier": "all unshared trees, keys, bits, values", "why_tests_cant": "a test exercises a handful of literal histories; the claim ranges over every history", "anchors": ["numtree/node32.go: inplaceInsert", "numtree/node64.go"]}
{"id": "C38", "title": "numtree: trees stay compact and shallow", "statement": "After any history each non-value node has two children and prefix lengths strictly increase downwards: at most 2n-1 nodes for n entries, depth at most 33 (65); no operation panics (no mask index or shift out of range).", "quantifier": "all histories", "why_tests_cant": "a test exercises a handful of literal histories; the claim ranges over every history", "anchors": ["numtree/node32.go: insert, inplaceInsert, del", "numtree/node64.go"]}
{"id": "C39", "title": "numtree: the shape depends only on the content", "statement": "Two histories ending with the same stored entries give the same tree (history independence).", "quantifier": "all pairs of histories", "why_tests_cant": "a test exercises a handful of literal histories; the claim ranges over every history", "anchors": ["numtree/node32.go: insert, del", "numtree/node64.go"]}
{"id": "C40", "title": "iptree: GetByNet/GetByIP return the most specific containing network", "statement": "GetByNet(n) returns the value of the longest stored network of the same family containing n, across the /64 boundary of IPv6; (nil,false) if there is none. Internal subtree values are never returned.", "quantifier": "all histories, all IPv4/IPv6 networks", "why_tests_cant": "a test exercises a handful of literal histories; the claim ranges over every history", "anchors": ["iptree/iptree.go: GetByNet, GetByIP"]}
{"id": "C41", "title": "iptree: InsertNet/InsertIP are persistent map updates", "statement": "InsertNet(n,v) changes only the entry of network n; IPv4 and IPv6 entries are independent; existing cells are not written.", "quantifier": "all trees, networks, values", "why_tests_cant": "a test exercises a handful of literal histories; the claim ranges over every history", "anchors": ["iptree/iptree.go: InsertNet, InsertIP"]}
{"id": "C42", "title": "iptree: DeleteByNet/DeleteByIP remove exactly the contained networks", "statement": "DeleteByNet(n) removes exactly the stored networks contained in n; the flag is true iff there was one; existing cells are not written.", "quantifier": "all trees, networks", "why_tests_cant": "a test exercises a handful of literal histories; the claim ranges over every history", "anchors": ["iptree/iptree.go: DeleteByNet, DeleteByIP"]}
{"id": "C43", "title": "iptree: Enumerate yields each stored network once, in canonical form", "statement": "Enumerate yields each stored network once with host bits zeroed and its mask, IPv4 first, ordered within a family.", "quantifier": "all trees", "why_tests_cant": "a test exercises a handful of literal histories; the claim ranges over every history", "anchors": ["iptree/iptree.go: enumerate"]}
{"id": "C44", "title": "iptree: malformed networks are ignored", "statement": "nil networks, networks whose address and mask lengths differ or whose mask is not contiguous neither change the tree nor match anything, and never panic.", "quantifier": "all byte-string addresses and masks", "why_tests_cant": "all malformed values", "anchors": ["iptree/iptree.go: iPv4NetToUint32, iPv6NetToUint64Pair, newIPNetFromIP"]}
{"id": "C45", "title": "iptree: IPv4-mapped IPv6 addresses are IPv4 addresses", "statement": "InsertIP/GetByIP/DeleteByIP treat the 4-byte and the 16-byte mapped form of an IPv4 address alike; an address of any other length is ignored.", "quantifier": "all addresses", "why_tests_cant": "all addresses", "anchors": ["iptree/iptree.go: newIPNetFromIP"]}
{"id": "C46", "title": "iptree: InplaceInsertNet has the effect of InsertNet", "statement": "On an unshared tree InplaceInsertNet gives the same content as InsertNet.", "quantifier": "all unshared trees, networks, values", "why_tests_cant": "a test exercises a handful of literal histories; the claim ranges over every history", "anchors": ["iptree/iptree.go: InplaceInsertNet"]}
{"id": "C47", "title": "iptree: UpdateDescendants updates exactly the strict descendants of a stored network", "statement": "If network n is stored, UpdateDescendants(n,f) calls f once per stored network strictly contained in n, in order, and replaces the values f asks for; nothing else changes. If n is not stored nothing is updated, with one exception (so that the plain claim is refuted): inside an IPv6 /64, the smallest network around all stored networks of that /64 is accepted as target although it is not stored, if it is written without host bits.", "quantifier": "all trees, networks, callbacks", "why_tests_cant": "a test exercises a handful of literal histories; the claim ranges over every history", "anchors": ["iptree/iptree.go: UpdateDescendants, updateNode64"]}
{"id": "C48", "title": "uintX/iptree: insertion and lookup agree with the generic iptree", "statement": "InsertNet/GetByNet of the generated iptrees store and find networks exactly as iptree does (longest containing network).", "quantifier": "all histories, networks", "why_tests_cant": "a test exercises a handful of literal histories; the claim ranges over every history", "anchors": ["uintX/iptree8/iptree.go: InsertNet, GetByNet", "uintX/iptree8/node64s.go"]}
{"id": "C49", "title": "uintX/iptree: DeleteByNet removes every contained network", "statement": "DeleteByNet(n) removes exactly the stored networks contained in n. (Refuted for IPv6 prefixes shorter than 64 bits not stored themselves: contained networks survive and false is returned. Proved for IPv4, for prefixes of 64 bits or more and for stored prefixes.)", "quantifier": "all trees, networks", "why_tests_cant": "needs a family of trees", "anchors": ["uintX/iptree8/iptree.go: DeleteByNet"]}
{"id": "C50", "title": "copy-on-write makes lock-free reading safe", "statement": "Any number of goroutines running Get/Match/Enumerate/Insert/Delete on a shared published tree, interleaved at the granularity of single memory accesses in any order, each obtain exactly the result they would obtain running alone.", "quantifier": "all schedules, all numbers of threads, all operations", "why_tests_cant": "the schedule space is unbounded", "anchors": ["strtree/node.go", "numtree/node32.go", "dltree/node.go", "domaintree/domaintree.go"]}
{"id": "C51", "title": "Enumerate delivers everything and then closes", "statement": "A consumer draining the channel receives exactly the in-order content and then the close, whatever the scheduling; a consumer that stops early leaves the producing goroutine blocked.", "quantifier": "all schedules of producer and consumer", "why_tests_cant": "schedules", "anchors": ["strtree/strtree.go: Enumerate", "strtree/node.go: enumerate", "numtree/node32.go: Enumerate"]}
{"id": "C52", "title": "Dot numbers nodes consistently", "statement": "In the output of Dot each node (and each nil child printed) appears exactly once with consecutive numbers, and an edge line 'Ni -> { Na Nb }' names exactly the lines of the two children of the node printed on line Ni.", "quantifier": "all trees", "why_tests_cant": "all shapes", "anchors": ["strtree/node.go: dot", "numtree/node32.go: Dot", "dltree/node.go: dot"]}
{"id": "C53", "title": "one handle, mixed calls", "statement": "A client that keeps only its latest tree and mixes Insert, Delete, lookups and Enumerate with InplaceInsert (and UpdateDescendants of iptree) in any order gets exactly the answers of one mutable map, although the trees that Insert and Delete return share nodes with the ones it dropped; memory it did not allocate is never changed. (strtree, dltree, numtree, iptree, uintX iptrees; domaintree is excluded, see C30.)", "quantifier": "all sequences of calls, keys, values, comparators, memories", "why_tests_cant": "unbounded sequences; sharing between dropped and current trees depends on the whole sequence", "anchors": ["strtree/strtree.go: InplaceInsert", "dltree/dltree.go: RawInplaceInsert", "numtree/node32.go: InplaceInsert", "iptree/iptree.go: InplaceInsertNet, UpdateDescendants"]}
{"id": "C54", "title": "InplaceInsert on any version", "statement": "InplaceInsert on any non-nil version obtained by any history, shared with other versions or not, leaves that version with exactly the content Insert would have returned; no node is reachable twice, so no write hits the tree in two places.", "quantifier": "all histories, versions, keys, values", "why_tests_cant": "unbounded histories; needs that no reachable tree contains a node twice", "anchors": ["strtree/node.go: inplaceInsert", "dltree/node.go: inplaceInsert", "numtree/node32.go: InplaceInsert"]}
{"id": "C55", "title": "MakeNameFromReflection takes exactly strings and names", "statement": "MakeNameFromReflection returns exactly for a Name or *Name (that same name) and for a string or *string that MakeNameFromString accepts (its result); it panics with that function's error for other strings and panics for values of every other type, nil pointers, pointers to pointers and the zero Value included.", "quantifier": "all values", "why_tests_cant": "all strings and all types", "anchors": ["domain/name.go: MakeNameFromReflection"]}
{"id": "C56", "title": "domaintree.InplaceInsert mixes with the other calls except below bare nodes", "statement": "On any version of any history InplaceInsert either leaves that version with exactly the content Insert would have returned, or panics with a nil dereference; it panics exactly if some name strictly above the given one was stored by Insert when nothing was stored for it or below it, has not been deleted since, and no name below it has been inserted since. A client that holds one tree and mixes InplaceInsert with all other calls gets the answers of one mutable map unless it meets that case.", "quantifier": "all histories, versions, names, values; all sequences of mixed calls on one handle", "why_tests_cant": "the panic depends on the whole history of a tree; unbounded histories and sharing between versions", "anchors": ["domaintree/domaintree.go: InplaceInsert, Insert", "domaintree/domaintree.go: Delete, DeleteSubdomains"]}
{"id": "C57", "title": "Calls are cheap: logarithmic in the keys stored, constant for networks", "statement": "After any history, Get, Insert, Delete and InplaceInsert of strtree and dltree on a version with n keys return after O(log n) accesses to memory and allocations (explicit bounds, e.g. 2*log2(n+1)+1 for Get, which allocates nothing); domaintree calls for a name of k labels need O(k log n); numtree calls O(32) or O(64) and iptree and uintX iptree calls at most a constant number (e.g. 234 for iptree.GetByNet), whatever is stored.", "quantifier": "all histories, versions, keys, comparators with cmp(k,k)=0, choices of fresh addresses", "why_tests_cant": "a worst case over all trees that histories can build; benchmarks only sample", "anchors": ["strtree/strtree.go", "dltree/dltree.go", "domaintree/domaintree.go", "numtree/node32.go, node64.go", "iptree/iptree.go", "uintX/iptree8/iptree.go"]}
{"id": "C58", "title": "strtree trees without a comparison function hold one key and then panic", "statement": "A client of the zero strtree.Tree (new(strtree.Tree), or NewTreeWithCustomComparison(nil)) sees a tree that accepts one Insert or InplaceInsert; Get and Delete on the empty tree find nothing, Enumerate and IsEmpty always work; the first Insert, InplaceInsert, Get or Delete on a tree that holds a key panics with a nil dereference.", "quantifier": "all sequences of calls on one handle, all keys and values, any memory", "why_tests_cant": "all call sequences; no test uses such a tree", "anchors": ["strtree/strtree.go: Tree, NewTreeWithCustomComparison", "strtree/node.go: insert, inplaceInsert, get, del"]}
{"id": "C59", "title": "With any comparison function strtree calls return, or an insertion loops for ever; exactly when", "statement": "Whatever (non-nil) comparison functions a history uses, it never panics: it returns, or one of its insertions loops for ever. On every version it made, Get, Delete, Enumerate and IsEmpty return, and Insert(k) returns if the tree is empty, Get(k) finds something or cmp(k,k) = 0, and loops for ever otherwise; the same for InplaceInsert on a tree filled by InplaceInsert. In particular with a comparison function that never returns 0 the second insertion loops for ever.", "quantifier": "all comparison functions, histories, versions, keys, values, memories", "why_tests_cant": "non-termination and arbitrary comparison functions", "anchors": ["strtree/node.go: insert, inplaceInsert, get, del", "strtree/strtree.go: NewTreeWithCustomComparison"]}
{"id": "C60", "title": "etc: fullSplit lists the names of any path, getRelName is relative to the parent of the catalog", "statement": "fullSplit(p) ends without index error for every path, however many components it has, and returns the names p simplifies to (no empty component, no '.', no 'x/..', no '..' below the root), preceded by '/' if p is absolute, and '.' for the working directory; these names are unique. makePrefix(t) stops the program exactly if t denotes the root directory; otherwise getRelName of any path below t is the base name of t followed by the names below it. getRelName returns for all arguments.", "quantifier": "all paths, working directories, catalogs and names below them", "why_tests_cant": "arbitrarily long paths (the buffer grows by ten slots); all shapes of paths", "anchors": ["etc/names.go: makePrefix, getRelName, fullSplit, hasPrefix"]}
{"id": "C61", "title": "etc: a selector reaches exactly the data its dot-separated names lead to", "statement": "sel(path, m) returns v if and only if v is what the names of path, separated by dots, lead to through nested maps with string keys; a path that is empty or ends with a dot names what precedes the dot and is accepted only if that is a map. Otherwise the error names the first component that is missing, or that is no map although the path goes on.", "quantifier": "all paths and all nested maps", "why_tests_cant": "all data and paths", "anchors": ["etc/data.go: sel"]}
{"id": "C62", "title": "etc: executing a catalog creates its files and directories in order, parents first, or a prefix of them", "statement": "execute handles the files and directories of the catalog parents first, each at its absolute name with the template executed, and never creates something at the name of its template; it stops at the first name without template or template that fails, after having done everything before it. If it runs to the end there is one creation for each file and directory.", "quantifier": "all catalogs, working directories, templates (as functions of names and contents)", "why_tests_cant": "all directory trees and all template results", "anchors": ["etc/main.go: execute", "etc/file.go: executeDir, executeFile"]}
{"id": "C63", "title": "numtree: Children leads to the longest prefixes shared by what is stored on either side", "statement": "Following Children from the root of any version (or from the node FindNode returns) along any path of sides ends in nil exactly when nothing is stored below the corresponding prefix, and otherwise in the node of the longest prefix common to everything stored there. That node has Leaf set exactly if the prefix itself is stored, then with the key and value last stored; otherwise its key is the prefix with zero bits after it and its value is nil. The content of the version alone determines where every path ends.", "quantifier": "all histories, versions, keys, lengths and paths; 32- and 64-bit trees", "why_tests_cant": "all contents and all paths; the tests call Children only to compare a few trees", "anchors": ["numtree/node32.go: Children, FindNode", "numtree/node64.go: Children, FindNode"]}
{"id": "C64", "title": "iptree: UpdateDescendants gives the same result however it interleaves with the goroutines it receives nodes from", "statement": "UpdateDescendants writes new values into nodes of a tree that another goroutine (the one started by Enumerate) is still walking, and starts a further one for each IPv6 /64. Under every interleaving of these goroutines it ends after a bounded number of steps without blocking or panicking, and leaves the same memory and the same sequence of callback calls as if the nodes had been collected first; the memory differs from the one before in values of nodes only, and the tree enumerates as C47 says.", "quantifier": "all histories, versions, target networks, callbacks (as functions with a state) and schedules", "why_tests_cant": "tests see one schedule at a time", "anchors": ["iptree/iptree.go: UpdateDescendants, updateNode64", "numtree/node32.go: Enumerate, enumerate", "numtree/node64.go: Enumerate, enumerate"]}
{"id": "C65", "title": "iptree, iptreeN: the keys handed out belong to the receiver", "statement": "Every network received from Enumerate, or passed to a callback of UpdateDescendants, has an address and a mask whose byte arrays are new: no other key, nor anything else in the program, shares them. A receiver may overwrite a key at any time, even while the enumeration goes on, without affecting the keys still to come, and the enumeration never changes a key that it has handed out (although it assembles IPv6 addresses in one buffer that it uses again and again).", "quantifier": "all histories, versions, interleavings with the receiver, and writes by the receiver into anything it has access to", "why_tests_cant": "tests compare keys as they come and do not modify them; sharing shows only later, under some schedules", "anchors": ["iptree/iptree.go: enumerate, UpdateDescendants, updateNode64, unpackUint32ToIP, unpackUint64ToIP", "uintX/iptree8/iptree.go: enumerate"]}
{"id": "C66", "title": "Dot: the text is a well-formed Graphviz file, whatever keys and values are stored", "statement": "The text returned by Dot, split into words as Graphviz does, is a directed graph with exactly the statements that draw the tree (C52). Quotes, backslashes, newlines, control characters and invalid UTF-8 in keys or in the Go syntax of values never end a label early or add a statement; every label, unescaped as a Go string, gives back the key (and the Go syntax of the value) exactly; numbers are the decimal or hexadecimal numerals of what is stored. A nil tree gives a graph without statements.", "quantifier": "all histories, versions, keys (any bytes), values, renderings %#v of values, and tables of printable characters", "why_tests_cant": "tests have a few keys of plain letters", "anchors": ["strtree/strtree.go: Dot", "strtree/node.go: dot, dotString", "dltree/dltree.go: Dot", "dltree/node.go: dotString", "numtree/node32.go: Dot, dotString", "numtree/node64.go: Dot, dotString", "uintX/strtree8/node.go: dotString"]}
{"id": "C67", "title": "UpdateDescendants with a callback that looks at the tree", "statement": "The callback given to UpdateDescendants may itself call GetByNet, GetByIP and Enumerate on the tree being updated, as often as it likes and depending on the answers. It is called for exactly the stored networks strictly inside the target, in order and once each; during each call the tree answers like a consistent tree holding the new values of the networks visited so far and the old values of the others; what it returns is stored; and the result is the same under every interleaving with the goroutines of Enumerate.", "quantifier": "all histories, versions, targets, callbacks (any adaptive sequence of lookups and enumerations), lookups afterwards, interleavings", "why_tests_cant": "tests use one callback that does not touch the tree, and see one schedule", "anchors": ["iptree/iptree.go: UpdateDescendants, updateDescendants, GetByNet, GetByIP, Enumerate", "numtree/node64.go: Enumerate"]}
{"id": "C68", "title": "UpdateDescendants with a callback that works on other trees", "statement": "The callback given to UpdateDescendants may, besides looking at the tree being updated (C67), build, insert into, delete from, look up in and enumerate other trees, and keep them from call to call. Neither kind of tree disturbs the other: the callback is called for exactly the stored networks strictly inside the target, in order and once each, its own trees answer as their own operations say, and the updated tree holds what the callback returned. In particular, a callback that inserts each network into another tree copies exactly the networks strictly inside the target with their values, and leaves the first tree as it was.", "quantifier": "all histories, versions, targets, callbacks (any adaptive sequence of operations), and lookups and enumerations of both kinds of trees afterwards", "why_tests_cant": "tests use one callback that touches no tree; sharing of memory between trees shows only for some shapes and operations", "anchors": ["iptree/iptree.go: UpdateDescendants, updateDescendants, InsertNet, DeleteByNet, GetByNet, Enumerate", "numtree/node64.go: insert, del"]}
{"id": "C69", "title": "UpdateDescendants and the other versions of a tree", "statement": "UpdateDescendants writes in place, and the versions of an iptree share nodes. Every other version keeps its networks and their order, remains a consistent tree, and a value of it changes only together with that of the updated version: for a network strictly inside the target, whose value was stored in both versions by one and the same call of the history, and both versions show the same value before and the same value after. Versions that have no such network, such as trees built separately, do not change at all.", "quantifier": "all histories, pairs of versions, targets, callbacks with state, and lookups in the other version afterwards", "why_tests_cant": "which nodes are shared depends on the whole history; tests look at the updated tree only", "anchors": ["iptree/iptree.go: UpdateDescendants, updateDescendants, InsertNet, DeleteByNet", "numtree/node32.go: insert, del", "numtree/node64.go: insert, del"]}
{"id": "C70", "title": "Histories that mix all calls with UpdateDescendants", "statement": "Building, inserting, deleting, looking up, enumerating and UpdateDescendants may be called in any order on any versions of iptrees. Every call answers from the versions as they are at that moment: the calls that make a new version change no other version, an update changes the version it is called on exactly as its callback says, and the other versions only where they hold the value of one and the same call. No call panics or writes memory that existed before. At the end every version has exactly the networks it would have without the updates, and the same values outside the targets of the updates.", "quantifier": "all histories with any number of updates, any versions, targets and callbacks with state", "why_tests_cant": "the effect of an update on other versions, and of later insertions on shared and updated nodes, depends on the whole history", "anchors": ["iptree/iptree.go: InsertNet, DeleteByNet, GetByNet, Enumerate, UpdateDescendants", "numtree/node32.go: insert, del", "numtree/node64.go: insert, del"]}
{"id": "C71", "title": "In-place insertion and the other versions of a tree", "statement": "Insert, Delete, lookups, Enumerate and InplaceInsert may be called in any order on any versions of a numtree. InplaceInsert overwrites nodes that other versions share; nevertheless each other version gets either the whole insertion (exactly the content Insert would give it) or nothing of it, stays a consistent tree, and can get it only if its entries agreed with those of the version inserted into inside some prefix around the new one. All calls answer from the versions of that moment; no call panics or writes memory that existed before. For strtree this is false: an older version can lose stored keys.", "quantifier": "all histories with any number of in-place insertions into any versions, keys and prefix lengths of any size", "why_tests_cant": "which nodes are shared and which are overwritten depends on the whole history", "anchors": ["numtree/node32.go: InplaceInsert, insert, del", "numtree/node64.go: InplaceInsert, insert, del", "strtree/strtree.go: InplaceInsert"]}
{"id": "C72", "title": "In-place insertion and the other versions of an iptree", "statement": "All iptree calls except UpdateDescendants, including InplaceInsertNet and InplaceInsertIP, may be called in any order on any versions. In-place insertion shows in the tree it is called on, under whatever name the client holds that tree. In every other version it shows as a whole (exactly the content InsertNet would give it) or not at all, although shared nodes are overwritten; it never changes what any version holds for another network; and it can show only in a version that holds, inside some network around the new one, the same entries stored by the same calls. So trees built separately never affect each other. All calls answer from the versions of that moment; no call panics or writes memory that existed before.", "quantifier": "all histories with any number of in-place insertions into any non-nil versions, IPv4 and IPv6, networks of any length, valid or not", "why_tests_cant": "which nodes of which of the nested radix trees are shared and which are overwritten depends on the whole history", "anchors": ["iptree/iptree.go: InplaceInsertNet, InplaceInsertIP, InsertNet, DeleteByNet", "numtree/node32.go: InplaceInsert", "numtree/node64.go: InplaceInsert"]}
{"id": "C73", "title": "All iptree calls in any order, on any versions", "statement": "NewTree, InsertNet, InsertIP, InplaceInsertNet, InplaceInsertIP, DeleteByNet, DeleteByIP, GetByNet, GetByIP, Enumerate and UpdateDescendants may be called in any order on any versions. Every call answers from the versions of that moment. In-place insertion shows in every other version as a whole or not at all; an update changes another version only where both hold the same entry stored by the same call, and then in the same way. Versions that are the same object always hold the same. Versions that have no stored entry in common never affect each other. Every entry of every version was stored for its network by one of the calls, and has the value of that call unless an update has a target strictly around it. No call panics or writes memory that existed before.", "quantifier": "all histories of all calls, any versions (in-place insertion and updates on non-nil ones), networks valid or not, callbacks with state", "why_tests_cant": "which nodes are shared, overwritten or updated depends on the whole history of all versions", "anchors": ["iptree/iptree.go: all exported methods of Tree", "numtree/node32.go: insert, del, InplaceInsert", "numtree/node64.go: insert, del, InplaceInsert"]}
{"id": "C74", "title": "Older versions of a strtree or dltree whose latest version is changed in place", "statement": "A client changes only the latest version of a tree, by Insert, Delete and InplaceInsert in any order, and reads any version. The latest version is always a map. An older version is the map it was left as until the first in-place insertion after it. After that, Get on it answers, and Enumerate lists, only entries that it or a later version held; entries may be missing, listed twice or out of order, and it is empty exactly if it was left empty. Whatever is answered was stored by an earlier call under an equal key. No call panics, goes on for ever or writes memory that existed before. Beyond that nothing is safe: Insert into an older version can panic after in-place insertions into the latest one, and with in-place insertions into two versions InplaceInsert can panic and Get can loop for ever. The same panics occur with a domaintree.", "quantifier": "all histories of such calls, all lawful comparison functions, all keys and values", "why_tests_cant": "older versions share nodes with the latest one in ways that depend on the whole history; that they stay finite and free of panics cannot be seen from examples, and the calls that break them need particular histories of eight or more calls", "anchors": ["strtree/node.go: insert, inplaceInsert, del, get, enumerate", "dltree/node.go: insert, inplaceInsert, del, get, rawEnumerate", "strtree/strtree.go: InplaceInsert", "dltree/dltree.go: RawInplaceInsert", "domaintree/domaintree.go: Insert, InplaceInsert"]}
{"id": "C75", "title": "Goroutines that use trees of their own need no locks", "statement": "Any number of goroutines run at the same time. Each makes trees of one of the packages and calls their methods, also those that work in place, in any order and on any version for which C53, C56, C71, C73, C74 or C76 says what the calls do. However the memory accesses of the goroutines interleave, none of them panics or is stuck, there is no data race, every answer is what the specification of that package says and what the goroutine gets when it runs alone, nothing that was in memory before is changed, and all goroutines end. The same holds for any programs that write only memory which they allocated themselves, for example programs that read or copy trees that all of them share.", "quantifier": "all numbers of goroutines, all packages mixed in any way, all calls with all arguments, all schedules, all memories to begin with", "why_tests_cant": "a cache or a counter at package level, or a node shared between separate trees, shows only under particular schedules and the race detector sees only the schedule that happened", "anchors": ["strtree/strtree.go", "domaintree/domaintree.go", "dltree/dltree.go", "numtree/numtree32.go, numtree64.go", "iptree/iptree.go", "uintX/domaintree*, uintX/iptree*"]}
{"id": "C76", "title": "In-place insertion and the other versions of a tree of uintX/iptree", "statement": "All calls of the trees of uintX/iptree8, 16, 32 and 64, including InplaceInsertNet and InplaceInsertIP, may be called in any order on any versions. In-place insertion shows in the tree it is called on, under whatever name the client holds that tree. In every other version it shows as a whole (exactly the content InsertNet would give it) or not at all, and it never changes what any version holds for another network. It can show only in a version that holds, inside some network around the new one, the same entries stored by the same calls, or that holds for the new network itself, an IPv6 network of less than 64 bits, the same entry stored by the same call (there iptree differs: it requires that the versions agree on all that is inside). Trees built separately never affect each other. All calls answer from the versions of that moment; no call panics or writes memory that existed before.", "quantifier": "all histories with any number of in-place insertions into any non-nil versions, IPv4 and IPv6, networks of any length, valid or not", "why_tests_cant": "which nodes of which of the nested radix trees are shared and which are overwritten depends on the whole history", "anchors": ["uintX/iptree8/iptree.go: InplaceInsertNet, InplaceInsertIP, InsertNet, DeleteByNet", "uintX/iptree8/node64.go, node64s.go, node32.go: InplaceInsert"]}
{"id": "C77", "title": "UpdateDescendants with a callback that goes on calling the package", "statement": "The callback of UpdateDescendants may keep a state, look things up, build trees, make new versions of any tree with Insert and Delete, and call UpdateDescendants of any version with a callback of the same kind, also of the tree that is being updated. The update calls it once for every network strictly inside the target that its tree had when the update began, in order, with the value the network has when its turn comes; what it returns replaces the value at once. A version made in the middle of the update sees later replacements only where it holds the same entry stored by the same call. No update, whatever its callbacks do, adds networks to versions that were there before or removes any. Every entry of every version was stored for its network by one of the calls, of the client or of a callback, and has the value of that call unless an update has a target strictly around it. No call panics or writes memory that existed before. With a callback that makes no calls this is the update of C47.", "quantifier": "all clients, which choose each call by the answers to those before it, all callbacks that store values of the client and make no in-place insertion, any nesting, versions and networks", "why_tests_cant": "what a derived version shares with the tree depends on the history, and the callback can interleave derivations and nested updates with the walk in unboundedly many ways", "anchors": ["iptree/iptree.go: UpdateDescendants", "iptree/iptree.go: InsertNet", "iptree/iptree.go: DeleteByNet", "numtree/node32.go: Enumerate", "numtree/node64.go: Enumerate"]}
{"id": "C78", "title": "Callbacks of UpdateDescendants that go on calling the package, under every schedule", "statement": "A client as in C77, whose callbacks make new versions and update trees, also the one being updated, runs together with the goroutines that UpdateDescendants receives nodes from, one for each update under way and each IPv6 /64 inside it. Under every interleaving, and wherever memory is allocated, it ends after finitely many steps, without blocking or panicking and with all these goroutines gone, and all its calls have been answered as C77 says. If memory is allocated by a rule that depends on nothing but the memory, all interleavings end with the same result and the same memory. Whenever it is about to write to a node that a goroutine is about to read, it writes to the field Value only, and what the goroutine does next does not depend on that field: there is no data race. (A callback that inserts in place into the tree that is being updated is not covered: with it the schedule decides whether the callback is called for the new network.)", "quantifier": "all clients and callbacks of C77, any nesting of updates, all memories, rules of allocation and interleavings", "why_tests_cant": "tests see one schedule at a time, and the walk of each goroutine can meet the derivations and nested updates of the callback at any point", "anchors": ["iptree/iptree.go: UpdateDescendants", "iptree/iptree.go: updateNode64", "numtree/node32.go: Enumerate", "numtree/node64.go: Enumerate", "iptree/iptree.go: InsertNet", "iptree/iptree.go: DeleteByNet"]}
{"id": "C79", "title": "Exactly which versions of a radix tree see an in-place insertion", "statement": "For any calls of Insert, Delete, lookups, Enumerate and InplaceInsert in any order on any versions of a numtree: each version consists of parts, one for each prefix that it stores or at which what it stores branches. Insert, and Delete if it deletes something, make the parts on the way to their prefix anew and take the others over; InplaceInsert adds the parts that were missing. InplaceInsert reaches, besides the version it is called on, exactly those versions that have the last part on the way to the new prefix from the same call as that version; these get the whole insertion, all others stay as they are. So the calls alone determine every result, wherever nodes are allocated. In particular, if b is made from a by Insert of k1, then InplaceInsert of k2 into b changes a exactly if the last part of b on the way to k2 is not on the way to k1.", "quantifier": "all histories with any number of in-place insertions into any versions, keys and prefix lengths of any size, all addresses", "why_tests_cant": "which nodes two versions have in common depends on all calls made so far; a test shows it for one history", "anchors": ["numtree/node32.go: InplaceInsert, insert, del", "numtree/node64.go: InplaceInsert, insert, del"]}
{"id": "C80", "title": "Exactly which versions of an iptree see an in-place insertion", "statement": "For any calls of NewTree, InsertNet, InsertIP, DeleteByNet, DeleteByIP, lookups, Enumerate and InplaceInsertNet/InplaceInsertIP in any order on any versions: a version consists of its *Tree, of parts for IPv4 networks, of parts for IPv6 networks shorter than /64 and for every /64 in which something is stored, and of parts inside each of these /64s; parts are as in C79. InsertNet, and DeleteByNet if it deletes something, make a new *Tree and make anew the parts on the way to their network, including its /64 and the way to that; they take all others over. In-place insertion reaches exactly: the versions that are the same *Tree; those that have the last part on the way to the new network from the same call as the version inserted into; and, if the network is inside a /64, those that have the last part on the way to that /64 from the same call. These get the whole insertion, all others stay as they are. So the calls alone determine every result, wherever memory is allocated. In particular, if b is made from a by inserting an IPv6 network, then in-place insertion of an IPv4 network into b shows in a exactly if a has a part on the way to it.", "quantifier": "all histories with any number of in-place insertions into any versions that are not nil, all networks and addresses of both families, all memory addresses", "why_tests_cant": "which nodes, inner trees and Tree objects two versions have in common depends on all calls made so far; a test shows it for one history", "anchors": ["iptree/iptree.go: InplaceInsertNet, InsertNet, DeleteByNet, NewTree", "numtree/node32.go: InplaceInsert", "numtree/node64.go: InplaceInsert"]}
{"id": "C81", "title": "Exactly which versions of a tree of uintX see an in-place insertion", "statement": "For any calls of NewTree, InsertNet, InsertIP, DeleteByNet, DeleteByIP, lookups, Enumerate and InplaceInsertNet/InplaceInsertIP of uintX/iptree8 (16, 32, 64) in any order on any versions: an IPv6 network is kept at a key, which is the network itself if it is shorter than /64 and its /64 otherwise. A version consists of its *Tree, of parts for IPv4 networks, of parts for the keys, and of parts at each key; parts are as in C79. InsertNet, and DeleteByNet if it deletes something, make a new *Tree and make anew the parts on the way to the key and, at the key, to the network; they take all others over. In-place insertion reaches exactly: the versions that are the same *Tree; those that have the last part on the way to the new network from the same call as the version inserted into; and, for an IPv6 network, those that have the last part on the way to its key from the same call. These get the whole insertion, all others stay as they are. So the calls alone determine every result, wherever memory is allocated. In particular, if b is made from a by InsertNet of any network that is not kept at the key of q, and a holds the IPv6 network q, then storing q again in b in place always shows in a; in iptree it does not.", "quantifier": "all histories with any number of in-place insertions into any versions that are not nil, all networks and addresses of both families, all memory addresses", "why_tests_cant": "which nodes, inner trees and Tree objects two versions have in common depends on all calls made so far; a test shows it for one history", "anchors": ["uintX/iptree8/iptree.go: InplaceInsertNet, InplaceInsertIP, InsertNet, DeleteByNet", "uintX/iptree8/node64.go, node64s.go, node32.go: InplaceInsert"]}
{"id": "C82", "title": "Exactly which values of which versions of an iptree an update changes", "statement": "For any calls of NewTree, InsertNet, InsertIP, DeleteByNet, DeleteByIP, lookups, Enumerate, InplaceInsertNet/InplaceInsertIP and UpdateDescendants in any order on any versions: a version consists of parts as in C80, each made by one call. An update of version a changes in another version b exactly those networks that both hold and both have from the same call, as far as it changes them in a, and b gets there the values that a gets; all else in b stays as it is. So the calls alone determine every result, wherever memory is allocated. A version made by InsertNet of p has from the same call as the old one exactly the networks of the old one that do not contain p; one made by DeleteByNet of p exactly those that neither contain p nor are contained in it. In particular, if b := a.InsertNet(p) and then one of the two is updated, the networks of a that do not contain p have the same values in both afterwards, and at all other networks the other tree keeps what it held.", "quantifier": "all histories with any number of in-place insertions and updates of any versions that are not nil, all callbacks with state that return values of the user, all networks and addresses of both families, all memory addresses", "why_tests_cant": "which nodes and inner trees two versions have in common depends on all calls made so far, and an update shows in the old version at some networks and not at others; a test shows it for one history", "anchors": ["iptree/iptree.go: UpdateDescendants, InsertNet, DeleteByNet, InplaceInsertNet", "numtree/node32.go: Insert, Delete, InplaceInsert, FindNode, Children", "numtree/node64.go: Insert, Delete, InplaceInsert, FindNode, Children"]}
{"id": "C83", "title": "A node kept by the client stays the entry of the version in which it was found", "statement": "For any calls of Insert, Delete, lookups, Enumerate and InplaceInsert in any order on any versions of a radix tree, where the client also keeps nodes returned by FindNode or sent by Enumerate and later reads n.Key, n.Bits, n.Value or sets n.Value: FindNode returns a node exactly if the prefix is stored in that version, and Enumerate sends one node for each stored prefix in order. Whatever was called in between, reading the node gives what that version holds at the prefix now (the value that ExactMatch gives there), and the prefix never goes away from that version. Setting n.Value changes the value of that prefix in exactly those versions that hold it and have it from the same call as the version from which the node was taken, keeps its key, and changes nothing else. So the calls alone determine every result, wherever memory is allocated. In particular after n := a.FindNode(q), b := a.Insert(p), n.Value = v: a holds v at q, and b does exactly if q does not contain p. If the values of all nodes sent by Enumerate of a are set, another version gets exactly those at prefixes that it has from the same call as a.", "quantifier": "all histories with any number of versions, in-place insertions, kept nodes and writes through them, both key sizes, all keys, lengths and values, all memory addresses", "why_tests_cant": "which versions have a node in common depends on all calls made so far, and a kept node may have been copied, overwritten in place or left behind by any later call; a test shows it for one history", "anchors": ["numtree/node32.go: Node32, FindNode, Enumerate, Insert, Delete, InplaceInsert", "numtree/node64.go: Node64, FindNode, Enumerate, Insert, Delete, InplaceInsert"]}
{"id": "C84", "title": "A loop over Enumerate may set the values of the nodes it receives", "statement": "After any calls as in C83, on any version of a radix tree: for n := range tree.Enumerate() { ... } whose body may set n.Value from n.Key, n.Bits, n.Value and a state of its own ends under every interleaving of the loop with the goroutine that is still walking the tree, without blocking or panicking. The body has then been called once for each entry, in the order of Enumerate, with the values before the loop, and memory and the final state are the same for every interleaving. The tree enumerates the same keys with the new values. Another version gets the new values exactly at the prefixes that it has from the same call as the tree, and everything called later on any version or kept node sees that.", "quantifier": "all histories with any number of versions, in-place insertions and kept nodes, all versions, all loop bodies that are functions of their state and the entry, both key sizes, all schedules", "why_tests_cant": "a test runs one schedule of the two goroutines; whether the walker sees a node before or after the write differs between schedules", "anchors": ["numtree/node32.go: Enumerate, enumerate, Node32", "numtree/node64.go: Enumerate, enumerate, Node64"]}
{"id": "C85", "title": "One version of a radix tree can be read while another is changed in place", "statement": "After any calls as in C83, one goroutine makes any call (InplaceInsert into a tree, setting the Value of a kept node, or anything else) while any number of goroutines call Match, ExactMatch, FindNode or Enumerate on a version b each, or read the fields of a node kept from b. If, for each such b, the changed tree and b do not have the part around the prefix from the same call (for InplaceInsert), or b does not have the entry of the node from the same call (for a Value), then under every interleaving of single memory accesses there is no data race, no call is stuck or panics, all end, each reader gets what its version gave before, and the changing call and all later ones on all versions and kept nodes behave as if it had run alone. In particular, after b := a.Insert(key, bits, v), calling b.InplaceInsert(key, bits, w) is allowed while others read any older version, and a node whose prefix contains the inserted one and that was kept from an older version may have its Value set while others read b. Without the condition there are races.", "quantifier": "all histories with any number of versions, in-place insertions and kept nodes, all calls, all versions and lists of reads, both key sizes, all interleavings", "why_tests_cant": "a test runs few interleavings, and which versions share the node that is overwritten depends on the whole history", "anchors": ["numtree/node32.go: InplaceInsert, Insert, Delete, Match, ExactMatch, Enumerate, Node32", "numtree/node64.go: InplaceInsert, Insert, Delete, Match, ExactMatch, Enumerate, Node64"]}
{"id": "C86", "title": "Versions of a radix tree can be read while a client goes on with others", "statement": "After any calls as in C83, one goroutine makes any sequence of calls (Insert, Delete, InplaceInsert, reads, setting the Value of kept nodes) while any number of goroutines each make any sequence of reads (Match, ExactMatch, Enumerate, finding nodes and reading their fields) of versions in a set J and of nodes kept from them. If each call of the first goroutine is apart from the versions in J in the sense of C85 when it is made, and it does not call InplaceInsert on a version in J, then under every interleaving of single memory accesses there is no data race, nothing is stuck or panics, each reader gets exactly the answers that the versions gave before, and the first goroutine and all its later calls get what they would get alone. A client that never calls InplaceInsert and never sets a Value meets the condition for every J; so does one that repeatedly takes b := a.Insert(key, bits, v) and then b.InplaceInsert(key, bits, w), for every J of older versions. Any client that calls reading methods on versions in J and reads the fields of nodes it has got itself in this way may be one of the readers.", "quantifier": "all histories, all later sequences of calls, all sets of versions, any number of readers and of their reads, both key sizes, all interleavings", "why_tests_cant": "the interleavings of two long sequences of calls cannot be enumerated, and which nodes versions share depends on the whole history", "anchors": ["numtree/node32.go: InplaceInsert, Insert, Delete, Match, ExactMatch, Enumerate, Node32", "numtree/node64.go: InplaceInsert, Insert, Delete, Match, ExactMatch, Enumerate, Node64"]}
