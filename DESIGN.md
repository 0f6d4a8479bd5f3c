# Formal model of beeware/colosseum: design

Source under study: `/repo/src/colosseum` (Python, read as text only, never run).
The model is written in Rocq/Coq 8.16.1 under `rocq/theories`.

## Layout of the development

Model files contain definitions only (`Anonymize.v` also proves its five lemmas);
definitions cite the lines they model.

| model file | models |
|------|--------|
| `PyNum.v` | exceptions as values, `int`/`float` numbers of layout, `round` (half to even), `//`, comparisons |
| `Float64.v` | binary64 rounding of rationals: the value of `float(s)`, `int / int` |
| `PyStr.v` | the `str` methods the parsers use, `int(s)`, `int(s, 16)`, `float(s)`, `repr(str)`, `ast.literal_eval` on single words |
| `Units.v` | `units.py` with exact arithmetic: `lu`, `px`, `deg`, `__eq__`, `__rmul__`, `__neg__`, the registry |
| `FloatUnits.v` | the same conversions with every operation rounded to binary64 |
| `Colors.v` | `colors.py` |
| `Values.v` | the values a program can assign, and Python's `==` on them |
| `Parser.v`, `Shorthand.v` | `parser.py` |
| `Choices.v` | `validators.py`, `constants.py` |
| `Wrappers.v` | `wrappers.py`, `shapes.py`, `str()` of values |
| `Decl.v` | `declaration.py`: the `CSS` class as a state machine |
| `Text.v` | `str()` of stored values, of declarations and of shorthand readings, over an arbitrary `repr` of floats |
| `Classes.v` | bounded number validators, `Choices.__str__` and the message of the setter, object identity in `Choices.validate`, the `Shorthand` class |
| `Repr.v` | `repr()` of values and of shorthand readings (with the second `str.format`), `hash()`, over arbitrary reprs of floats and hashes of leaves |
| `Computed.v` | which declaration values `engine.py` reads |
| `BoxModel.v` | `dimensions.py`: `Size`, `Box`, trees with propagating setters |
| `Engine.v` | `engine.py` |
| `EngineArith.v` | `engine.py` again over an abstract arithmetic, with an exact, a binary64 and two checked instances |
| `HslFloat.v` | `hsl.rgb` with every operation rounded to binary64 |
| `Angle.v` | `AngleUnit.deg`, every operation rounded to binary64 |
| `Misc.v` | code no property or engine path uses: `unvalidated_property`, `Box.__repr__`, `is_inline_level_element`, `is_uri` |
| `Rooted.v` | `layout()` of a node that has a parent (engine.py:690-691) |
| `Cost.v` | the tree-level engine again, with a count of `layout_box()` calls and of the setters that go through the children (dimensions.py:233-291) |
| `Anonymize.v` | `anonymize()` and the block loop literally, shown equal to the fused form in `Engine.v` |

`*Spec.v` and `RefLayout.v` are specifications: small definitions a reader needs
to understand the theorems, independent of the model's helpers.  `*Facts.v`,
`Engine{Pure,Tree,Width,Height,Inv,Total,Cong,Replaced,Rel,Sim,Fuel,Hidden,Grid,FBound}.v`
are proofs.  `EnginePure.v` is a proof device: layout on trees without origins,
proved equal to the engine.  `*Props*.v` contain the theorems named after the
properties, each with an `Example` that meets its hypotheses and a
`Print Assumptions`.

Conventions
* Exceptions are values: `res A := Ok a | Err e`.  Code that changes state returns
  the state *and* the result, so the state after an exception is modelled.
* Recursion of the engine is bounded by the height of the tree; C106 proves that
  the bound is never reached.
* Iteration order of Python sets is an arbitrary permutation (a parameter), so all
  theorems hold for every `PYTHONHASHSEED`.
* Object identity (colour, `BorderSpacing`, `Uri` objects have no `__eq__`) is
  modelled by object numbers.

## Trusted base

* Coq's kernel, version 8.16.1, including `vm_compute` (used for `Example`s,
  refutations on literals and finite tables).
* Axioms: `Print Assumptions` answers "Closed under the global context" for every
  theorem in MANIFEST.json.  No axiom is used.  (A scan of all loaded libraries
  also lists `Coq.ssr.ssrunder.Under_rel.*`, the contents of a sealed module of the
  standard library; no theorem depends on it.)
* That the model says what the code does.  This is a reading of the source; the
  simplifications are stated at each definition and collected here.  As a check of that
  reading, `tools/replay.py` builds the 2409 reference documents of
  `/repo/tests/web_platform` in the model from the texts of their styles, lays them out and
  compares with the references as `tests/utils.py` does: the model passes all 417 documents
  the suite expects the code to pass, and fails all 1992 documents it marks as expected
  failures.  `tools/replay_values.py` does the same for 388 assertions on literals of
  test_units.py, test_color.py and test_parser.py; all agree (145 assertions of other
  forms are not replayed).  `tools/replay_declaration.py` replays 50 of the 56 tests of
  CssDeclarationTests (538 statements) on the model of declarations; all agree.  (Tests of the model, not part of any proof.)

Simplifications
* Layout numbers: a finite float is its exact rational value.  C107 (layout stays
  on the 1/64 px grid), C108 (binary64 is exact there below 2^46 px) and C109
  (error of the conversions in binary64) say what this loses; C137 and C138 prove that layout with
  every operation rounded to binary64 (`EngineArith.v`) is the exact layout within these bounds.
* Strings are sequences of Latin-1 characters.  The 4300-digit limit of `int(s)`,
  the sign of zero and `repr` of fractional floats are not modelled (`repr` is a
  parameter where it occurs).
* `bool` is an `int`; values of other Python types (bytes, dict, generators,
  user classes with their own operators) are not represented.
* `ast.literal_eval` in `quotes` decides string literals (without triple quotes, \U, \N and escapes for
  characters beyond Latin-1), also several side by side, identifiers, decimal numbers and words that start like no expression; other
  forms (containers, bytes, prefixes, expressions) give the explicit outcome
  `Unmodelled`, as do items other than strings, integers and None of a sequence given
  to `quotes`.
  An `Unmodelled` outcome is an error value, so C103 counts such values of `quotes` as
  not accepted and C84 lists quotes texts and sequences among the exceptions: for
  these inputs the theorems say nothing about the code.
* Documents are finite trees; a node's `layout.node` is the node; nodes are not
  shared.
* The engine's font is the `DummyFont` it constructs; `px()` itself is modelled for
  any font.
* In `Colors.v` (C12, C13, C90, C92) hsl-to-rgb conversion uses exact arithmetic and is `Unmodelled` for components that
  are not finite; `HslFloat.v` (C173) models it with every operation rounded, infinities and NaN included.  The exact scale of an angle (`Units.deg_of`) is not used; `Angle.v` rounds.
* Indices of `ImmutableList` operations are integers, not slices.
* In `Engine.v` the node given to `layout()` has no parent (`Rooted.v`, C181, has one that does), and every other node's `parent` is the
  node whose child it is (engine.py:690 reads it).

Not modelled
* `__repr__` of `OtherProperty`, `utils.py` (unused: it
  imports `HEIGHT` and `WIDTH` from `constants.py`, which defines neither, so importing
  it raises `ImportError`), the commented-out flexbox and grid code.  `Viewport` has no definition of its own: as a
  containing block it is the display, which is how `Engine.v` treats the root.  `establishes_table_formatting_context`
  always returns False, so the branch at engine.py:230 is never taken and `layout_children` leaves it out.

## Findings

Claims that a user would expect and that the theorems refute (with witnesses in
the development); the exact behaviour is proved in the property named last.

Units and colours
* `"10deg"`, `"inf"`, `"nan"` are accepted as lengths and fail only during layout
  (C08, C30; C87, C88).  A stored angle cannot be assigned again, so `copy()` raises (C98).
* Whole magnitudes above 2^53 do not survive printing and parsing (C06).
* Negative percentages are always accepted.
* `"#+1 2-3"`-like texts are colours: signs and blanks pass `int(s, 16)` (C10; C89).
* `color("")` raises IndexError; an hsl text with a huge percentage OverflowError (C17; C84).
* The delimiters of `rgb(...)` are never looked at (C14; C91).
* hsl: red and green are exchanged for hues strictly between 240 and 300 (C12; C90);
  hues outside the circle are taken modulo 120 (C13; C92).

Declarations
* Colour objects compare by identity: assigning the same hex colour again marks the
  layout dirty.
* A value equal to the initial value is not stored and not in `keys()` (C27; C97).
* `clip=5`, `border_spacing=None`, `cursor=5` raise AttributeError or TypeError (C17; C84).
* `Uri`, `Rect`, `BorderSpacing`, `Quotes` values read back cannot be assigned again (C16; C83);
  `copy()` raises for quotes and url cursors and silently drops clip and border spacing (C28; C98).
* `rect(t, r, b, l)` stores left and bottom exchanged (C33; C93).
* `quotes=("ab", "cd")` is read character by character (C94).
* `border` always reads as `""` (C25).  Directional properties, `outline` and `update()`
  are not atomic (C20).
* `ImmutableList` does not block `del`, `+=`, `*=`, `clear` (C36; C96).
* The texts of None and of hsl colours are rejected by every property (C114); URLs with a comma
  and quotes with a blank are split when their text is read (excluded in C113).
* The text of a border or outline with an rgb colour is rejected by the same shorthand (C117).
* `repr()` of a `Shorthand` passes its own text through `str.format` again: an object made by hand
  with a brace in a text raises KeyError, IndexError or ValueError (C148_example).
* An `ImmutableList` and a `Cursor` with the same members are equal but hash differently; lengths,
  rectangles and quotes cannot be hashed (C149).
* NaN passes the bounds of number validators; large integers raise OverflowError (C118).
* The error message for colours contains the address of an object (C119).
* On a node without layout the setter stores the value, then raises AttributeError; so a
  hidden node cannot be shown again without an exception.
* A cursor list equals an `ImmutableList` with the same items but hashes differently; `Uri`
  compares by identity; unit classes define `__eq__` without `__hash__` and are unhashable.
* `border="  "` and `outline="  "` are accepted and reset every part; an empty text inside a
  shorthand sequence raises IndexError.

Layout
* Centring halves with `//` and loses less than two pixels (C43; C71).
* min/max-width act only on explicit widths, max-height only on explicit heights,
  min-height only on childless auto heights (C45, C49; C73, C77).
* Left/right paddings and borders in percent refer to the height the parent has
  when the child is laid out, which is still 0 in a static parent (C66; C112).
* Relative boxes are moved down by their own border and padding once too often, and
  a relative last child makes its parent higher (C57; C112).
* Replaced elements: height = width * ratio (C58; C81).
* Inline content after the last block of a container is never laid out and makes an
  auto-height parent 0 tall; before a block it raises (C48, C59; C105, C112).
* A hidden node before a block raises, and so does one that is last in an auto-height
  block without block children; last in one with block children it makes the block
  0 tall (C56; C104, C105).
* A node shown again has its origin at 0; after hiding the root, or the last child of a relative
  block of auto height, no later layout succeeds (C52, C62; C79, C122).
* Margins that are not whole pixels do not collapse; sibling gaps use the following
  block's own margin, not its collapsed extent (C40, C47, C61; C69, C75, C78).
* `em`, `ex`, `ch` lengths are negative: the engine uses `DummyFont(-1)` (C60).
* border-style none does not remove the border's width (C63).
* Layout never clears the dirty flag (C67; C80).
* An inline box with margin-top auto raises TypeError; margin-bottom auto of an inline
  non-replaced box stays AUTO.
* INHERIT offsets raise AttributeError on the root and next to an offset that is not auto.
* An image with a ratio but no size in a container narrower than its margins gets a negative
  width and height.
* An infinite amount raises OverflowError or ValueError depending on the display (C136).
* A flex or grid child next to a block raises AttributeError, alone a plain Exception (C135).

## Testing the theorems

`seeded/LOG.jsonl` records edits of the model that imitate realistic bugs, the
claim each one breaks, the theorems that no longer proved and the theorems that were
tightened afterwards.

## Properties

Status `partial` means that the English statement is false of the code or only
part of it is proved; the note says what is missing.  Statements are in
properties.jsonl, theorem names in MANIFEST.json.

<!-- property table, generated by tools/mkdesign.py -->
| property | status | file | how | note |
|---|---|---|---|---|
| C01 Pixel conversion rounds to the nearest 1/64 px | proved | UnitsProps.v | lu/px of every unit class over all rationals; round-half-even lemmas |  |
| C02 Pixel conversion is monotone and sign symmetric | proved | UnitsProps.v | monotonicity and oddness of round-half-even |  |
| C03 Whole pixels come back as int, fractional pixels as float | proved | UnitsProps.v | case analysis on px() |  |
| C04 Physical units agree with each other | proved | UnitsProps.v | field identities on the scale factors |  |
| C05 Percentages and viewport units resolve against their reference size | proved | UnitsProps.v | algebra on px() |  |
| C06 Printing a length and parsing it back is the identity | partial | UnitsParseProps.v | decimal printer against the float() grammar, for all integers | False as stated: a whole magnitude above 2^53 does not survive float() (C06_refuted). Proved for every whole magnitude a float can hold and for numbers and numeric texts. |
| C07 Parsing a length does not depend on which lengths were created before | proved | UnitsParseProps.v | invariant: the registry is the built-in one followed by entries with built-in suffixes; parse results depend on the prefix only |  |
| C08 A value accepted as a length is a length | partial | UnitsParseProps.v | acceptance of the length validator | False as stated: '10deg', 'inf' and 'nan' are accepted (C08_refuted). Exact replacement: C87 (accepted texts), C88 (which convert). |
| C09 Short and long hex colours agree | proved | ColorProps.v | case analysis on strings of length 3 and 4 |  |
| C10 Hex colours denote their digits and stay in range | partial | ColorProps.v | case analysis on digit pairs | False as stated: int(' f', 16) and signs are accepted (C10_refuted). Exact replacement: C89. |
| C11 Colour names are case-insensitive and match CSS | proved | ColorProps.v | table of 147 names lifted over all letter cases; no other name by the lookup |  |
| C12 HSL colours convert to RGB as CSS defines | partial | ColorProps.v | equality with the CSS Color 3 algorithm written in ColorSpec.v | False for hues strictly between 240 and 300 (C12_refuted). Exact replacement there: C90. |
| C13 HSL conversion never leaves the RGB cube | partial | ColorProps.v | rational arithmetic on the six sectors | Range proved; periodicity is false (C13_refuted). Exact replacement: C92. |
| C14 Functional colour notation denotes its arguments | partial | ColorProps.v | the parser on printed components with any blanks | Unbalanced parentheses are accepted (C14_refuted). Exact replacements: C91, C160. |
| C15 Validation does not depend on hash order | proved | DeclProps.v | the order in which sets are iterated is an arbitrary permutation parameter of the model; result independent of it |  |
| C16 Validated values are normal forms | partial | DeclProps2.v | normal forms per property | False for clip, border-spacing, quotes, url cursors and angles (C16_refuted). Exact replacement: C83. |
| C17 Invalid values are rejected with ValueError | partial | DeclProps2.v | classification of the exceptions of all validators | False for six kinds of input (C17_refuted). Exact replacement: C84. |
| C18 Set then get returns the validated value | proved | DeclProps.v | one step of the declaration machine from any state |  |
| C19 Setting one property changes no other | proved | DeclProps.v | one step of the declaration machine from any state |  |
| C20 Failed assignments leave the declaration unchanged | partial | DeclProps2.v | one step of the declaration machine | False for directional properties, update() and outline (C20_refuted). Exact replacement: C85. |
| C21 Dirty tracking of style changes is exact | proved | DeclProps.v | one step of the declaration machine |  |
| C22 Deleting restores the initial value | proved | DeclProps.v | one step of the declaration machine |  |
| C23 Directional shorthands expand 1-4 values clockwise | proved | DeclProps2.v | expansion of 1 to 4 values against a table |  |
| C24 Border and outline shorthand parts may come in any order | proved | DeclProps2.v | permutation invariance of the part parser |  |
| C25 Shorthands read back what was set | partial | DeclProps2.v | reading after setting | `border` always reads '' (C25_refuted). Exact replacement for the others: C86. |
| C26 Property names: dashes, underscores, unknown names | proved | DeclProps.v | name lookup and the fold of update() |  |
| C27 keys(), items() and str() describe exactly the declared properties | partial | DeclProps3.v | keys/items/str from any state | A value equal to the initial value is not stored, hence not in keys() (C27_refuted). Exact replacement: C97. |
| C28 copy() is faithful and independent | partial | DeclProps3.v | copy() as a fold of assignments | copy() raises or loses values (C28_refuted). Exact replacement: C98. |
| C29 Derived defaults follow their source property | proved | DeclProps.v | reading border colours and text-align in any state |  |
| C30 Declared values always have the type the layout engine expects | partial | ComputedProps.v | invariant over all operation sequences | Angles are accepted as lengths and reach the engine (C30_refuted). The kinds otherwise are proved; C99 gives the exact view of the engine. |
| C31 Cursor values: any number of URLs, then at most one keyword, last | proved | ParserProps.v | characterisation of the accepted sequences and texts |  |
| C32 url() spelling does not matter | proved | ParserProps.v | characterisation of the accepted texts |  |
| C33 rect() accepts commas or spaces and keeps the CSS order | partial | ParserProps.v | rect() on four lengths | The order is top, right, left, bottom (C33_refuted). Exact replacement: C93. |
| C34 border-spacing takes one or two lengths | proved | ParserProps.v | characterisation of the accepted texts and sequences |  |
| C35 quotes takes a non-empty even number of non-empty strings | proved | ParserProps.v | characterisation of the accepted sequences |  |
| C36 Immutable lists never change | partial | ParserProps.v | operations of list on ImmutableList | del, +=, *= and clear are not blocked (C36_refuted). Exact replacement: C96. |
| C37 Content, padding and border boxes are properly nested | proved | BoxProps.v | algebra over all boxes |  |
| C38 Absolute coordinates are origin plus relative coordinates | proved | BoxProps.v | algebra over all boxes |  |
| C39 Moving a box moves its descendants | partial | BoxProps.v | invariant over operation sequences on trees | Resetting a non-root node breaks it (C39_subtree_reset_refuted). Exact replacement: C68. |
| C40 Collapsed margin extents only grow and equal the largest margin | partial | BoxProps.v | invariant over assignment sequences | A whole float such as 5.0 is ignored (C40_whole_float_refuted). Exact replacement: C69. |
| C41 Invalidating a node invalidates its whole subtree | partial | BoxProps.v | invariant over dirtiness assignments | False after cleaning a single child (C41_cleaned_child_refuted). Exact replacement: C70. |
| C42 Intrinsic size changes mark the layout dirty exactly when the value changes | proved | BoxProps.v | one assignment |  |
| C43 Horizontal box equation (CSS 2.1 10.3.3) | partial | EngineWProps.v | width phase of every laid-out block | Centring uses // 2 twice and loses pixels (C43_centred_odd_refuted). Exact replacement: C71. |
| C44 Auto margins centre the box | partial | EngineWProps.v | width phase of every laid-out block | Two refutations; exact replacement: C72. |
| C45 min-width and max-width clamp the used width | partial | EngineWProps.v | width phase | min/max-width are ignored when width is auto (C45_auto_width_refuted). Exact replacement: C73. |
| C46 Over-constrained margins give way on the end side | proved | EngineWProps.v | width phase; mirrored styles |  |
| C47 Block children are stacked without overlap, separated by collapsed margins | partial | EngineHProps.v | induction along the block flow | Gaps use the collapsed extent of the previous block (C47_plain_margins_refuted). Exact replacement: C75. |
| C48 Auto height encloses the children | partial | EngineHProps.v | height phase of every laid-out block | Trailing inline content (C48_trailing_inline_refuted). Exact replacement: C76. |
| C49 Explicit height is respected and limited by min-height/max-height | partial | EngineHProps.v | height phase | min-height is ignored with explicit height (C49_min_height_refuted). Exact replacement: C77. |
| C50 The root box fits the display | proved | EngineHProps.v | the end of layout() |  |
| C51 Absolute positions are consistent after layout | proved | EngineIProps.v | the invariant of C39 along layout_box |  |
| C52 Layout depends only on the document, not on history | partial | EngineIProps.v | layout factors through reset | A node whose box was removed keeps history (C52_history_refuted). Exact replacement: C79. After any history, everything but origins is independent of it (C122). |
| C53 Layout never modifies its inputs | proved | EngineIProps.v | frame property along layout_box, in every outcome |  |
| C54 Every supported document can be laid out | proved | EngineTProps.v | progress, by induction on the tree |  |
| C55 Unsupported features are reported, never silently laid out | proved | EngineTProps.v | contrapositive: what success implies for each laid-out node |  |
| C56 display: none removes a node without affecting the rest | partial | EngineHdProps.v | two-run induction against the pruned document | False in general (C56_refuted). Exact replacements: C104, C105. |
| C57 Relative positioning shifts a box by its offsets and nothing else | partial | EngineRProps.v | relative boxes against static ones | Vertically the upper edge is added twice and the parent grows (two refutations). C112 gives the exact position. Exact replacement: C126. |
| C58 Inline replaced elements keep their intrinsic size and ratio | partial | EngineRProps.v | width and height phases of inline replaced elements | The height is width * ratio (C58_ratio_refuted). Exact replacement: C81. |
| C59 All displayed content is laid out | partial | EngineTProps.v | laid-out nodes of inline contexts | Inline content after the last block is dropped (C59_mixed_content_refuted). C112 says exactly what happens to it. Exact replacement: C130. |
| C60 Positive lengths give non-negative sizes | partial | EngineRProps.v | sign invariant along layout | Font-relative lengths are negative because the engine uses DummyFont(-1) (C60_font_refuted). Missing: those, inline and relative boxes, and horizontal margins. Exact replacement: C129. |
| C61 Collapsed top margin is the maximum along the first-child chain | partial | EngineHProps.v | extents along the first-child chain | Sibling gaps do not use that extent (C61_sibling_gap_refuted). Exact replacement: C78. |
| C62 Re-displaying a hidden node restores its layout | partial | EngineRProps.v, HistProps.v | witness | False: the re-shown subtree has its origin at 0 (C62_reshow_refuted), and hiding the root or the last child of a relative auto-height block makes every later layout raise (C62_stuck_refuted). Proved: when the layouts succeed, everything but origins is the same, for all histories (C62_reshow_partial; exact in C122). |
| C63 Borders without a style take no space | partial | EngineWProps.v | witness | False: border-style is not read by the engine (C63_border_style_none_refuted; also follows from C112). Exact replacement: C127. |
| C64 Pixel documents do not depend on resolution | proved | EngineCProps.v | two-run induction |  |
| C65 Horizontal geometry of a block does not depend on its siblings or children | partial | EngineWProps.v | two-run statement on the width phase | Missing: children of a relative root in HTML5 mode (C65_relative_root_refuted), stale boxes under re-shown nodes, relative blocks. True replacement: C74. |
| C66 Percentages resolve against the right axis | partial | EngineWProps.v | width phase | Left/right paddings and borders use the height (C66_axis_refuted); C112 says which percentage refers to what. Exact replacement: C128. |
| C67 After layout the document is clean | partial | EngineTProps.v | witness | False: layout never clears the flag (C67_dirty_after_layout_refuted). Exact replacement: C80. |
| C68 Moving boxes and resetting the document keeps positions consistent | proved | BoxProps.v | as C39 |  |
| C69 With pixel margins the collapse extent is the largest whole margin | proved | BoxProps.v | as C40 |  |
| C70 Invalidating a node reaches its whole subtree when cleaning is done at the root | proved | BoxProps.v | as C41 |  |
| C71 Horizontal equation up to centring | proved | EngineWProps.v | as C43 |  |
| C72 Auto margins, exactly | proved | EngineWProps.v | as C44 |  |
| C73 Explicit widths are clamped exactly | proved | EngineWProps.v | as C45 |  |
| C74 Horizontal geometry is local | proved | EngineWProps.v | as C65 |  |
| C75 Block children are stacked by collapsed extents | proved | EngineHProps.v | as C47 |  |
| C76 Auto height encloses static block children | proved | EngineHProps.v | as C48 |  |
| C77 Explicit height is exact up to max-height | proved | EngineHProps.v | as C49 |  |
| C78 Collapsed extents of a block | proved | EngineHProps.v | as C61 |  |
| C79 Layout of a fully boxed document forgets all history | proved | EngineIProps.v | reset erases the history; induction over layouts |  |
| C80 Layout never marks a block box clean | proved | EngineTProps.v | dirtiness along layout_box |  |
| C81 Exact used size of inline replaced elements | proved | EngineRProps.v | as C58 |  |
| C82 Used vertical margins are the specified ones | proved | EngineRProps.v | height phase |  |
| C83 Exactly which read values can be assigned again | proved | DeclProps2.v | case analysis over the kinds of stored values |  |
| C84 The only values whose rejection is not a ValueError | proved | DeclProps2.v | as C17 |  |
| C85 Failed longhand and border assignments change nothing | proved | DeclProps2.v | as C20 |  |
| C86 Outline and one-sided borders read back their parts | proved | DeclProps2.v | as C25 |  |
| C87 Exactly which texts are lengths | proved | UnitsParseProps.v | float() grammar and the 18 suffixes |  |
| C88 Which accepted lengths convert to pixels | proved | UnitsParseProps.v | as C08 |  |
| C89 Exactly which '#' texts are colours | proved | ColorProps.v | case analysis on pairs of characters |  |
| C90 HSL hues strictly between 240 and 300 degrees exchange red and green | proved | ColorProps.v | as C12 |  |
| C91 The delimiters of functional colours are ignored | proved | ColorProps.v | the text is cut by position |  |
| C92 Hues outside the circle are taken modulo 120 degrees | proved | ColorProps.v | as C13 |  |
| C93 rect() values are top, right, left, bottom | proved | ParserProps.v | as C33 |  |
| C94 A flat sequence of strings given to quotes is read character by character | proved | ParserProps.v | list lemmas |  |
| C95 The text of a quotes value is read back | proved | ParserProps.v | repr() and literal_eval on all Latin-1 strings |  |
| C96 Only del, +=, *= and clear can change an immutable list | proved | ParserProps.v | as C36 |  |
| C97 Each operation changes keys() in exactly the described way | proved | DeclProps3.v | as C27 |  |
| C98 Exactly which declarations copy() reproduces | proved | DeclProps3.v | as C28 |  |
| C99 The engine sees exactly what reading the declaration shows | proved | ComputedProps.v | the declaration read into the engine's style record (Computed.v) |  |
| C100 Layout depends only on the properties the engine reads | proved | ComputedProps.v | congruence of layout in the styles |  |
| C101 A document with copied declarations is laid out the same | proved | ComputedProps.v | C98 and C100 |  |
| C102 A clean layout is current | proved | ComputedProps.v | C21 and C100 over operation sequences |  |
| C103 Each property accepts exactly its own keywords and kind of value | proved | AcceptProps.v | one acceptance table for all 50 longhands (AcceptSpec.v); for colours, spacings, rects and cursors the table names the parser, C163 replaces these by a written grammar |  |
| C104 Harmless hidden nodes are as good as absent | proved | EngineHdProps.v | two-run induction with the pruned document |  |
| C105 Where a hidden node breaks the layout | proved | EngineHdProps.v | failure of the flow |  |
| C106 Layout terminates | proved | EngineHdProps.v | fuel equal to the height of the tree is never exhausted |  |
| C107 Layout stays on the 1/64 px grid | proved | EngineGProps.v | invariant along layout_box in every outcome |  |
| C108 Layout arithmetic is exact in floating point | proved | FloatProps.v | binary64 rounding of rationals with bounded numerators |  |
| C109 Length conversion in floating point | proved | FloatProps.v | error analysis of units.py with every operation rounded |  |
| C110 Written decimals become the nearest double | proved | FloatTextProps.v | correct rounding of the decimal grammar |  |
| C111 Layout of block documents equals the reference layout | proved | RefProps.v | C54 and C112 |  |
| C112 Every successful layout is the reference layout | proved | RefProps.v | induction over the tree: every box of layout_box against the reference layout of RefLayout.v |  |
| C113 The text of a stored value is read back as that value | proved | TextProps.v | text of each kind of value against its parser (TextProps.v), then C103; Python's repr of floats is a parameter constrained by shown_float |  |
| C114 Texts that cannot be read back are rejected | proved | TextProps.v | validation of the text fails for every property |  |
| C115 A declaration can be rebuilt from its text | proved | TextProps.v | induction over the items with C113 for each; followers (border colours, text-align) through the property they follow |  |
| C116 A document rebuilt from the texts of its declarations has the same layout | proved | TextProps.v | C115 and the congruence of layout in the readings (as C101) |  |
| C117 The text of a border or outline with a colour is rejected | proved | TextProps.v | the printed colour contains blanks; its first word is accepted by no component |  |
| C118 Bounded number validators accept exactly the numbers in range | proved | ClassProps.v | case analysis with the order on rationals, infinities and NaN |  |
| C119 The error message lists exactly the permitted values | proved | ClassProps.v | insertion into a sorted list without repetition; keywords compared with the table of every property; two sorted lists with the same members are equal |  |
| C120 Shorthand objects hold exactly the named parts | proved | ClassProps.v | induction over the arguments; permutation and order invariants |  |
| C121 A keyword is always kept as the one constant object | proved | ClassProps.v | Choices.validate on objects with identities, refined to the model without identities |  |
| C122 After any history, a successful layout has the reference sizes and positions | proved | HistProps.v | invariant: below a node without a box all boxes are in their initial state up to origins, kept by edits and by every step of layout; then as C112 |  |
| C123 Exactly which documents can be laid out | proved | OkProps.v | boolean condition on the tree (OkSpec.v) equal to the success of every phase, by induction on the tree |  |
| C124 Whether a document can be laid out does not depend on the display | proved | OkProps.v | the condition of C123 mentions no display |  |
| C125 A document that was laid out can be laid out again | proved | OkProps.v | the condition of C123 is kept by layout; then C122 |  |
| C126 What relative positioning moves | proved | MoveProps.v | both layouts equal the reference layout (C112); induction on the path to the block |  |
| C127 Declarations without effect | proved | EffectProps.v | every function of the engine reads only the effective part of a style; induction on the recursion |  |
| C128 What percentages of edges and vertical margins refer to | proved | EdgeProps.v | by C122 every box that takes part shows the values of the reference layout in an area with the width of the parent |  |
| C129 Signs of used edges and heights | proved | EdgeProps.v | as C128, with the signs of lengths; heights by induction on the tree in the reference layout |  |
| C130 Exactly which displayed children are left out | proved | SkipProps.v | the condition of C123 holds again after layout and says that blocks come first; the boxes by C122 |  |
| C131 Editing the end of a document moves nothing before it | proved | LocalProps.v | induction over the change for the reference layout (stacking a list is stacking its beginning first), carried over by C122 and C112 |  |
| C132 A subtree looks the same in equally wide containers | proved | LocalProps.v | each laid-out child shows the reference layout of its subtree in an area with the width of its parent; that depends on nothing else |  |
| C133 The height of the display only sets the height of the root | proved | DisplayProps.v | the reference layout sees the display height only in vh, vmin, vmax and at the root; carried over by C122 and C124 |  |
| C134 Nested auto-width blocks fill the display exactly | proved | DisplayProps.v | induction over the path from the root |  |
| C135 A failing layout raises the exception of the first obstacle in document order | proved | FaultProps.v | first-obstacle function (FaultSpec.v) shown to agree with the outcome of every phase, by induction on the tree (FaultFacts.v) |  |
| C136 The exception does not depend on the display | proved | FaultProps.v | corollary of C135: the first obstacle does not mention the display |  |
| C137 Python's floats do not change the layout | proved | EngineFProps.v | the engine written over an abstract arithmetic, function by function; lockstep simulation of the exact, the binary64 and a checked instance that stops where they could differ | C138 gives a syntactic condition |
| C138 Ordinary documents never leave the range where floats are exact | proved | EngineFProps.v | Hoare-style bounds on every box and origin through layout_box, by induction on the depth (EngineFBound.v), then C137 | boxes left from an earlier layout below a node without a box, percentages, ratios and INHERIT offsets are excluded; C137 covers them |
| C139 Only the pixel values of lengths matter | proved | PixelProps.v | refinement: each stage of the engine maps a success on the document to the same success on the document in pixels (PixelFacts.v); the reference heights seen during layout are related to the boxes after layout | lengths that fail to convert and are never read become 0px |
| C140 Layout in floats is exact layout of a document with rounded lengths | proved | PixelProps.v | the simulation of C137 for an arithmetic with float conversions and guarded exact operations, then the refinement of C139 for that arithmetic; a float quotient by 64 is always a multiple of 1/64 |  |
| C141 A taller block pushes what follows by exactly as much | proved | PushProps.v | induction over the path for the reference layout: stacking from a lower place moves the whole stack, and the height of a block is that of its last child; carried over by C122 and C112 |  |
| C142 An edit moves what comes after it as a whole | proved | PushProps.v | induction over the path for the reference layout: two stackings of the same children differ by one vertical move; carried over by C122 and C112 |  |
| C143 What is inside a box with its own height moves nothing outside | proved | PushProps.v | induction over the path for the reference layout: a box whose outside is unchanged leaves the stacking unchanged; carried over by C122 and C112 |  |
| C144 Zooming a document | proved | SymProps.v | tree induction on the reference layout for two related areas: every used length, width and collapsed margin is k times the other; carried over by C122; success by C123, whose criterion is the same for both documents |  |
| C145 Mirroring a document | proved | SymProps.v | tree induction on the reference layout for two related areas: the width equations are solved by exchanged margins; carried over by C122; success by C123, whose criterion is the same for both documents |  |
| C146 The order of keyword arguments does not matter | proved | OrderProps.v | each assignment run from two states which agree on the longhands it sets has the same result up to the numbers of the objects it creates (simulation over the validators and properties); induction over the list against one reference run per item |  |
| C147 Which number a text denotes | proved | ReadProps.v | inversion and construction lemmas for the digit scanner with underscores, relating it to a grammar of texts; rounding characterised for the whole range, including overflow, and shown to be unique |  |
| C148 What repr() of a value is | proved | ReprProps.v | equivalence with an inductive relation of texts, by induction over nested values; the texts of the parts a border or outline can hold contain no brace, so str.format() is the identity on them; format strings are split into characters, doubled braces and fields by induction on the text | objects made by hand with a brace in a text raise or print something else (C148_example) |
| C149 Hashing agrees with equality | proved | ReprProps.v | induction over nested values, for arbitrary hash functions of the leaves |  |
| C150 A plain block put around blocks moves nothing | proved | WrapProps.v | induction over the path to the wrapper for the reference layout: the wrapper's edges are zero, its children are stacked as before but from its own top, and its border box ends where its last child ends; carried over by C112 and C122; success by C123 |  |
| C151 A length written as text is the size of that part of the box | proved | WrittenProps.v | the written number by C110; the declaration by the setter and C30/C99 (an equal value keeps a stored unit of the same kind and number); the box by the reference layout (C112, C122) read at that part; the two rounding errors are added |  |
| C152 The percentage check accepts exactly non-negative percentages, and is never decisive | proved | PercentProps.v | C87 for the accepted texts; the sign by the comparison of floats; for the properties, is_length is the first validator of each of them |  |
| C153 The two axes are laid out independently | proved | AxisProps.v | AxisSpec.v/AxisProps.v: structural induction on the reference layout (C122) for a pair of documents, once per axis; the areas of the containing blocks agree on the axis in question. |  |
| C154 What a wider display changes | proved | AxisProps.v | AxisProps.v: structural induction on the reference layout under two displays; one lemma for containing blocks of the same width (nothing changes) and one for a containing block t px wider; that the second layout succeeds is C124. |  |
| C155 Larger vertical lengths never move anything up | proved | MonoProps.v | MonoSpec.v/MonoProps.v: induction on the reference layout with a relation between used values that stacking, auto heights and collapsed extents preserve; absolute edges follow by adding up. C155_fraction is the counterexample for fractional margins. |  |
| C156 Which texts quotes accepts, word by word | proved | QuoteProps.v | QuoteSpec.v says by characters what a quoted word, a literal without length and a non-literal are; QuoteProps.v evaluates literal_eval's model on each kind, then induction two words at a time. |  |
| C157 Blocks appear on the page in document order and never overlap | proved | FlowProps.v | tree induction on the reference layout: siblings are stacked with gaps that are never negative and an automatic height ends at the last child, so each subtree stays between the border edges of its root; carried over to boxes and absolute coordinates by C112, then induction on the common path |  |
| C158 What is inside a block in the document is inside its content box | proved | FlowProps.v | the same induction for the vertical part; for the horizontal part induction on automatic widths, which leave exactly the margins; carried over by C112 |  |
| C159 Larger horizontal sides and smaller widths never make any box wider | proved | NarrowProps.v | Induction over the reference layout with the relation 'the containing width is not larger'; the used width is monotone because rounding to the 1/64 px grid, the limits and percentages are (NarrowProps.v). |  |
| C160 Exactly which functional colours are accepted, and what they denote | proved | FuncProps.v | The arguments are cut at the commas (split_on_join); int() and float() are described by C147, strip().rstrip('%') by the shape of a percentage, and the division by the correctly rounded conversion (FuncProps.v). The lightness of a text whose saturation overflows is not looked at, as in the code. |  |
| C161 Exactly which assignments raise something other than ValueError, and what | proved | RaiseProps.v | RaiseSpec.v lists the cases (raises p v e), with the overflowing texts of FuncSpec.v; RaiseProps.v proves that set_prop raises e exactly in these cases. A text that starts with hsl is either too short or has two delimiters around arguments split at the commas, so C160 decides it. |  |
| C162 Every text is decided by the colour parser | proved | AnyColorProps.v | AnyColorSpec.v: the three forms (color_of) and the overflowing texts. AnyColorProps.v combines C89, C160 and C11 with a case analysis on the beginning of the text, in both directions. |  |
| C163 The grammar of every property's values, written out | proved | GrammarProps.v | GrammarSpec.v writes the grammar as inductive definitions that call none of the parser's functions. GrammarProps.v proves each parser equivalent to its part of the grammar (units, integer, colour, border_spacing, rect, uri, cursor) and combines them with C103 and C161. Quotes are left out because their parser evaluates Python literals (C156). |  |
| C164 Exactly which values border and outline accept, and what they do | proved | ShortProps.v | ShortSpec.v describes parts, fitting components and the failing cases with the written grammar of C163 only. ShortProps.v proves that the parser assigns parts to components exactly so (each part fits at most one component) and follows the assignment component by component. |  |
| C165 What a directional assignment does, also when it fails | proved | ShortProps.v | induction over the sides already assigned, using C163 for one side |  |
| C166 A declaration is a table: the last write to a property counts | proved | TableProps.v | refinement: TableSpec.v defines an abstract machine on tables (longhand to value) whose steps use only the written grammar; TableProps.v proves that every operation of the model simulates its step (using the lemmas behind C163-C165, C22, C26), that programs compose, and that every operation that does not assign quotes has a step (C166_total). |  |
| C167 Layout depends only on the last writes to the properties the engine reads | proved | EditProps.v | from the table theorem C166 each read after a program equals what the last write means; a stored-value invariant over programs shows that lengths in the store are lengths of the library, for which equality means equal pixels; then the layout simulation behind C92 and C116. |  |
| C168 Angles in degrees | proved | AngleProps.v | the two roundings are bounded with the relative error and monotonicity of round-to-nearest-even on the model of doubles; the conversion to int is split by whether the result is whole. |  |
| C169 A property without validation keeps the last value and marks the node | proved | MiscProps.v | induction over the sequence of operations; the mark by the equality test of the setter. |  |
| C170 The text of a box determines its size and place | proved | MiscProps.v | the separators cannot occur in the texts of the numbers, so that the text splits in one way; then injectivity of the texts. |  |
| C171 is_uri accepts exactly the url texts and fails only with ValidationError | proved | MiscProps.v | from C32 and the exceptions of the parser of urls. |  |
| C172 Inline-level and block-level elements | proved | MiscProps.v | by cases over the display values. |  |
| C173 Colour conversion with Python's floating-point arithmetic is a correct rounding | proved | HslFloatProps.v | absolute error bounds for each rounded operation; division by 60 keeps every double in its sector; the hue function is 1-Lipschitz; for whole numbers 255 times a fraction is a multiple of 1/300000 x 255, so the accumulated error cannot cross a half. |  |
| C174 Blocks without vertical margins can be put in any order | proved | EditOkProps.v, ReorderProps.v | a subtree without vertical margins has no collapsed extents (induction); such boxes stack border edge to border edge, so where the next one goes depends only on the sum of the heights; induction over the path; carried over by C112 and C122. |  |
| C175 An empty block undoes the collapsing of the margins around it | proved | EditOkProps.v, SpacerProps.v | after an empty box the bottom extent is 0, so the next gap is the whole top margin: the difference of the gaps is the overlap; induction over the path as for C141. | unlike CSS, where margins collapse through empty blocks |
| C176 Text after the last block makes the block around it flat | proved | EditOkProps.v, TailProps.v | the trailing children are left out by the reference layout, so the last child contributes an empty box; induction over the path; carried over by C112 and C122, success by C123. | a finding: trailing inline content gives the height 0, and later blocks overlap |
| C177 The page is the reference layout of the values last written | proved | ScriptProps.v | what the declarations read as by C166 and C167; values that are equal are lengths of equal size, and the reference layout only uses sizes; then C112 and C122. The written length as C151. |  |
| C178 What a percentage written as text comes to | proved | ShareProps.v | the reference layout read at the part (C112, C122), with the area that the parent hands down; what the declaration reads as by C166/C167; the number by C147; the two rounding errors are added. | a finding: percentage heights do not nest |
| C179 HTML5 mode only changes the height of the root | proved | ModeProps.v | both modes run the same steps up to the last one; the last step is read off, and setting a content height touches no other attribute. |  |
| C180 Operations on different properties can be reordered | proved | SwapProps.v | the effect of an operation (C166) is confined to the longhands it is about, so two independent effects commute; induction on the exchanges; layout by C167. |  |
| C181 Laying out a node that has a parent | proved | RootedProps.v | Rooted.v models layout() of a node with a parent; C181_no_parent: without a parent it is Engine.layout; C181_parent: everything up to the last computation of the height is the same program, which reads the parent only for the content height; C181_height: what that height is. |  |
| C182 The boxes Python computes for a pixel document are those of what was written | proved | PyPageProps.v | composition: what a declaration reads is what the engine sees (C99), so the document is plain in the sense of C138 and floats do not matter; exact layout of the declarations is the reference layout of the last writes (C177). |  |
| C183 What anonymize() does with a list of children | proved | AnonProps.v | invariant of the loop (the collected run and the containers so far); the inductive specification determines the list. |  |
| C184 A session of edits and layouts in Python's floats shows the last values written | proved | SessionProps.v | invariant of the session: it is a history in the sense of C122 and all boxes are in layout units (C107); so C138 applies to every layout, and C177 gives the page. |  |
| C185 The work of a layout is at most proportional to the number of nodes times the depth | proved | CostProps.v | Cost.v is the tree-level engine with a counter; C185_same: erasing the counter gives Engine.layout (and reset's literal recursion gives reset); the bound is by induction with the sum of all subtree sizes as potential, which is at most nodes times depth; C185_once: matching lower bound. Examples show that nesting does cost more than a row. |  |
| C186 Documents in any units but percentages, laid out in Python's floats | proved | AbsDocProps.v | the bound of C138 is proved for the exact operations with any conversion of lengths (EngineFBound.v: gen_checked), used here with the conversion in floats; then C140 gives the document in pixels, which for lengths that are no percentages is the document with converted styles, and C112 its page; C109 the distance. |  |
| C187 Escapes in the words of quotes are Python's, not those of CSS | proved | EscapeProps.v | the escapes are an inductive relation between the characters written and the text (EscapeSpec.v); the reader of the model gives the text of the relation, by induction on it (EscapeFacts.v). A finding: CSS escapes in quotes silently denote other characters. \\U and \\N and characters beyond Latin-1 are not decided by the model. |  |
| C188 Deep documents really are more work: the bound with the depth in it cannot be improved | proved | DepthProps.v | the counted layout of C185 (Cost.v); an element's content top is 0 after the reset and the sum of border and padding at the end, so the setters must have changed it, and each change visits all boxes of the subtree, which are consistent with their parents (DepthFacts.v, by induction on fuel and children). For documents of blocks the final insets are those of the reference layout (C128), which gives the sum of the levels, and chains of padded blocks the square. |  |
| C189 Strings written side by side in quotes are one string | proved | JoinProps.v | the words are an inductive relation over the literals of C187 (JoinSpec.v); reading them in the model gives the joined text, by induction on the relation with whatever follows (JoinProps.v). A finding: text without blanks inside the pairs, valid in CSS, is silently misread. Literals in triple quotes, tuples and prefixes are not decided by the model. |  |
| C190 Borders exchanged for paddings move nothing | proved | TradeProps.v | two documents related by TradeSpec.v have the same reference layout (C112) up to the border and padding of each side, whose sums agree, by induction on the document; C122 says that the layouts show it |  |
| C191 In Python's floats, a document without percentages behaves like its lengths in px | proved | ConvertProps.v | the layout in floats, the checked one (C138) and one with exact operations and float conversions agree; the last is compared with the exact layout of the converted document function by function; C123 decides success, and a length that converts in floats is measurable |  |
| C192 Used sizes written down move nothing | proved | PinProps.v | induction on the document: the reference layout (C112, C122) with a written size is the one without, node by node; C123 decides success, monotonically in what is measurable |  |
| C193 Documents of whole pixels have int boxes | proved | WholeProps.v | an invariant of every function of the engine: int boxes and whole styles give int boxes; conversions by C03, boxes of earlier layouts by C79 |  |
| C194 Used margins, borders and paddings written down as declared ones move nothing | proved | FreezeProps.v | induction over the document: by C122 the boxes hold the used values of the formatter, and the formatter uses the same values once they are declared in px; success by C123 |  |
| C195 The same page on a display with more dots per inch | proved | FinerProps.v | every length comes to k times as many px on the finer display, so that the document on the second display is the zoomed document of C144 |  |
| C196 Every arrangement of rectangles from top to bottom can be written as a document | proved | DrawProps.v | induction over the rectangles: the reference layout of the document written for them, then C122; success by C123 |  |
| C197 Percentages of percentages: rounding errors do not grow | proved | NestProps.v | induction over the chain: C73 and C01 for a percentage, the step of C134 for auto; a share of at most 1 of the error so far, plus 1/128 |  |
| C198 Edits of a declaration can be undone | proved | UndoProps.v | invariant over the undoing program: each longhand has the old value, or an equal one left from the edits, or none where the initial value is equal; layout by the congruence of C167 |  |
| C199 Horizontal margins of blocks with a declared width only move them sideways | proved | AsideProps.v | structural induction on two documents over the reference layout, in two containing blocks that differ only in where they start; the width of a block with a declared width is the limited declared width in every branch |  |
| C200 Limits that are not reached have no effect | proved | LimitProps.v | structural induction over the reference layout with the used values of the first document: a size strictly within the limits is the declared one, and the new limits leave it as it is |  |
| C201 Equal items are evenly spaced | proved | EvenProps.v | induction on the number of items over stacking in the reference layout; equal items in the same containing block are formatted alike |  |
| C202 A top margin no larger than the margin it collapses with has no effect | proved | SoftProps.v | induction over the document in the reference layout: the top margin of a block is used only when it is stacked, through the maximum with the extent above it, and the children are formatted in the same area |  |
| C203 A bottom margin no larger than the top margin below it has no effect | proved | FirmProps.v | induction over the document in the reference layout; the extents left by corresponding siblings are equal or both hidden by the next top margin, and last children agree exactly, so heights and extents of parents do |  |
| C204 Blocks, list items and flat tables are laid out alike, and so are all refused displays | proved | DrawnProps.v | both runs of the engine proceed in lockstep, by induction on the recursion depth: the tests of the display agree, and where being a block container could differ there are no block-level children or the width has already been refused |  |
| C205 Width and height do not apply to inline text | proved | WordProps.v | both runs of the engine proceed in lockstep, by induction on the recursion depth; the style height of a containing block is the same or not read by the child |  |
| C206 Where intrinsic sizes matter | proved | IntrProps.v | induction over the document in the reference layout, by cases of display and declared size |  |
| C207 Inline children do not see each other | proved | RowProps.v | induction over the document in the reference layout: in a row every child is laid out in the same area |  |
| C208 Top margins of first blocks move nothing but the root | proved | FirstProps.v | induction over the document in the reference layout: stacking ignores the top margin of the first box |  |
| C209 The left and right sides of inline text move nothing | proved | SidesProps.v | induction over the document in the reference layout |  |
| C210 Only the last child of a line matters to anything outside | proved | LoneProps.v | induction over the document in the reference layout |  |
| C211 The right side of inline images moves nothing | proved | RightProps.v | induction over the document in the reference layout |  |
| C212 All parts of a line start in the corner of the container | proved | CornerProps.v | every box of the reference layout is the layout of its element in the area of its container (as in C207) |  |
