H={}
def h(ids,text):
    for i in ids.split(): H[i]=text
h('C01 C02','codec model of b64encode and of the lenient a2b_base64; induction over 3-byte groups')
h('C03 C04 C05 C06','integer model of datetimes and of the correctly rounded division; arithmetic, witnesses')
h('C07 C08','block writer and parser; induction on the payload with the block index as invariant')
h('C09 C10','locality of parsers (success does not depend on what follows) and inversion of each adapter')
h('C11 C12','success of the parser implies the tag equations; a forgery yields a collision')
h('C13 C14 C15 C16','locality of parsers; prefix argument; witness')
h('C17','error paths of construct through the classification in read')
h('C18 C19','header kept as raw copy by the model of save; consequence for the keystream')
h('C20','object model with the payload left unparsed; case analysis over the parsers')
h('C21 C22 C23','list induction; Feistel inversion; finite sweeps over bytes and linearity against TwofishSpec.v')
h('C24 C25 C26 C27','case analysis over the key file readers; streams with position')
h('C28 C29 C30','keystream position as invariant over document order')
h('C31 C32 C33','save as a list of file-system effects; every prefix is a crash point')
h('C34 C35 C36 C69 C80 C81 C82','object and file-system model; invariants of the object over every call; composition with C09/C10')
h('C37 C38 C39 C40 C42 C76','query strings lexed, parsed and evaluated; equal to a filter of the document order')
h('C41 C73','paths and parents by induction on the depth; searches by path via C37')
h('C43 C44 C45 C46 C47 C48 C49 C50 C74','assignments as row updates with frame; fields as an ordered list')
h('C51 C52 C53 C54 C55 C56 C57 C58','structural calls as row updates; reachability in the document')
h('C59 C60 C64 C87','histories as lists of snapshots; frame over later edits')
h('C61 C62 C63 C84','the list of binaries refined by the store of either version; induction over histories of calls')
h('C65 C66 C67','scanner for references; recursion with fuel, divergence for all fuel; a finite set of references is split into those that can be expanded and a circular rest (counting argument, Ref_loop.v)')
h('C68','exact model of CPython hashes of ints and tuples')
h('C70 C77','settings of Meta as rows')
h('C71','invariants and frame of every call, induction over histories of calls')
h('C72','serialiser and parser of Xml.v, induction on trees')
h('C75','witness')
h('C78 C79','independent description of the format (FormatSpec.v); both directions by induction over its parts')
h('C83','listings as searches, via C37-C40')
h('C85 C86','row updates; induction over the list')
h('C88','printing composed from path and field theorems')
h('C89','the deprecated wrappers as queries, via C37, C40, C41')
h('C90','simulation by an abstract list of fields; induction over the sequence of calls')
h('C91','bytes written at a position; round trip with trailing bytes; induction over the databases in a stream')
h('C92','round trip of the pretty printer through the parser by induction over documents; substring argument for the values')
h('C93','the two documents are related element by element (same route from the root); every reading function of Api.v and every search shown to respect the relation')
h('C94','a Hoare-style predicate on the effect monad: each primitive step leaves the rows of the part alone when the element written is outside; outsiders are closed under children that are no entries or groups; induction over the sequence')
h('C95','the header facts of Format.v (fields found by number, dictionary values by name) carried to the object returned by opening')
h('C96','the relation of a document and its sealed form takes a parameter for tolerated texts; such texts are left as they are (base64 and UTF-8 decoders fail), with the right key stream position after them; witness for values cut off')
h('C97','induction over XPath expressions: every node set is a subsequence of all nodes in document order; lexer and parser run symbolically on the two usual queries')
h('C98','the number an attachment refers to is followed through the calls by a small function (fate); induction over the sequence with the invariants of C61; what has left the document is not linked again')
h('C99','the bytes built depend on header, contents and derived key only; what a saved file opens as has the contents of the document read back, which reading back leaves alone')
h('C100','the bytes built depend on contents and derived key only (as in C99); the file replaced by rename does not enter; witness for the lost update by computation')
h('C101','Hash.v, Aes.v, Chacha.v, Argon.v, Inflate.v define the algorithms (checked against published test vectors) and prove the inverse laws; the sample files are embedded as bytes (RealFiles.v) and opened, saved and tested by the virtual machine while building (RealOpen.v, Conform*.v), not as theorems')
h('C102','the parser refuses what lies beyond its limit, protecting values keeps the nesting, so the file written is refused at its last step; nesting by induction on the number of add_group calls (Limits.v)')
h('C103','OutlineSpec.v defines outlines, the changes to them (put, drop, clear, arrange) and the effect of each kind of call; Outline_tree.v proves existence and uniqueness of outlines and how changed rows change them; Outline_calm.v and Outline_step.v go through the 32 kinds of calls; Outline_list.v reads the document from above')
h('C104','Register_mute.v: steps that keep the children with given tags and the texts of elements with these tags; Register_calls.v: for every kind of call the tags it may change something under; Register.v: what is found along the path of tags of a property is kept, either because the call minds other tags or because it is about another entry or group (C94); read-back from C48 and C74; Level.v for the version')
h('C105','Line.v: the rows of an entry and its string fields are kept by every call that is not one of its own on string fields, because the call minds other tags (Register_calls.v, which also keeps the Protected attribute) or is about another element (C94); its own calls run on the ledger of C90; induction over the history')
h('C106','Setting.v: what is found under Meta along the tag of a setting is kept by every call that minds other tags (Register_calls.v); read-back from C77; induction over the history')
h('C107','Unique.v: the outline after a call (C103) has no members but those before and the new element, whose first child is the UUID drawn (Outline_calm.v:linked); UUIDs of the others are kept (C104); moves by sets closed under membership; the search by C37 over the lists of C103')
h('C108','UnicodeSpec.v states UTF-8 as a relation (shortest form, no surrogates); Unicode.v: the codec of Utf8.v computes it both ways; then through key_composite, open_kdbx and build_kdbx')
h('C109','ElementPath.v: the expression is lexed, parsed and evaluated by the XPath model, step by step down the ancestors; the ordinal picks one of the siblings of equal tag')
h('C110','ReadSpec.v lists the calls and defines sessions; Read.v: each call returns the database it was given, then induction over the session')
h('C111','Fail.v: a call that only reads before its one change, and whose change raises before it takes effect, leaves the state; a new element that could not be linked stays outside the document; touch sets its second time to the same text, which cannot raise after the first; FailBin.v: a bin is only made when moving into it succeeds, and the binaries of KDBX 3 can be read again once the new one is among them')
h('C112','Spare.v: every call keeps the rows of a part it does not touch, where the part may be the whole old document; Calm.v: binaries, version and document element are kept; Scratch.v: the group then has its old children plus the new one, deleting it gives back every row, and equal rows are equal trees')
h('C113','Undo.v: a new child appended to an element of the document and cut out again gives back every row, and equal rows are equal trees (Scratch.v); that the deleting call finds the new child is shown by running it on the entry with the child appended')
h('C114','Again.v: the assignment takes out the one element that matches and appends a new one; doing so again gives an element that looks the same at the same place, and by induction over the tree the documents are equal; texts set twice give equal rows')
h('C115','Last.v: both ways lead from the same database to one in which the children of the item are the same but for the last, which looks the same; by induction over the tree of the first database the two documents are equal')
h('C116','Swap.v: the element an assignment writes in place is found by the tags on the way to it, which no such assignment changes; the rows agree in either order. Apart.v: a call on an entry or group gives the same looks in any database that has that tree; both orders change the same two elements, and by induction over the tree the documents are equal; for a setting, the way to it from the top keeps its tags. Inside.v: a call that puts an element at the end reads only the children of its tag, which a call in place elsewhere leaves alone. Nested.v: nor does a call that puts an element at the end of another element touch them')
h('C117','Drop.v: a deletion takes one number out of the children of every row and changes nothing else, so two of them commute; the way to what is written in place has no Entry, Group or Binary as a step that could go. DropMore.v: any other property is read from the children it is stored in, which the deletion leaves as they are')
