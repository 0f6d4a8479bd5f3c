{"id": "C01", "title": "Pixel conversion rounds to the nearest 1/64 px", "statement": "For every length and every context in which `length.px(display, font, size)` returns, the result is a multiple of 1/64 px and differs from the mathematically exact value of the length by at most 1/128 px; a length that is already a multiple of 1/64 px is returned unchanged.", "quantifier": "every unit class (px, font, absolute, viewport, %), every int or finite float magnitude, every dpi, font size and reference size", "why_tests_cant": "magnitudes, dpi and reference sizes are unbounded; half-way cases are rare points", "anchors": ["src/colosseum/units.py:Unit.lu", "src/colosseum/units.py:Unit.px", "src/colosseum/units.py:AbsoluteUnit.lu", "src/colosseum/units.py:FontUnit.lu", "src/colosseum/units.py:ViewportUnit.lu", "src/colosseum/units.py:Percent.lu"]}
{"id": "C02", "title": "Pixel conversion is monotone and sign symmetric", "statement": "If a <= b then (a*unit).px(...) <= (b*unit).px(...) whenever the unit's scale in that context is non-negative, and (-u).px(...) == -(u.px(...)) for every length u.", "quantifier": "all pairs of magnitudes, all units, all contexts", "why_tests_cant": "quantifies over all pairs of magnitudes including rounding ties", "anchors": ["src/colosseum/units.py:Unit.px", "src/colosseum/units.py:BaseUnit.__neg__"]}
{"id": "C03", "title": "Whole pixels come back as int, fractional pixels as float", "statement": "px() returns a Python int exactly when the rounded value is a whole number of pixels, otherwise a float. Margin collapsing relies on this (it ignores non-int values).", "quantifier": "all lengths and contexts", "why_tests_cant": "depends on the rounding of every possible magnitude", "anchors": ["src/colosseum/units.py:Unit.px", "src/colosseum/dimensions.py:Box.collapse_top"]}
{"id": "C04", "title": "Physical units agree with each other", "statement": "At every dpi, v inches, 72*v points and 6*v picas convert to the same number of pixels, and v cm and 10*v mm do too.", "quantifier": "every magnitude v and every dpi", "why_tests_cant": "all magnitudes and dpis", "anchors": ["src/colosseum/units.py:AbsoluteUnit", "src/colosseum/units.py:inch", "src/colosseum/units.py:pt", "src/colosseum/units.py:pc", "src/colosseum/units.py:cm", "src/colosseum/units.py:mm"]}
{"id": "C05", "title": "Percentages and viewport units resolve against their reference size", "statement": "100% of a reference size that is a multiple of 1/64 px is that size; 0% is 0; v vw and v vh are v% of the display width and height; for v >= 0 vmin <= vw, vh <= vmax.", "quantifier": "every magnitude, reference size and display size", "why_tests_cant": "all sizes", "anchors": ["src/colosseum/units.py:Percent.lu", "src/colosseum/units.py:ViewportUnit.lu", "src/colosseum/units.py:vmin", "src/colosseum/units.py:vmax"]}
{"id": "C06", "title": "Printing a length and parsing it back is the identity", "statement": "For every length of a built-in unit with a whole-number magnitude, parsing str(length) gives a length equal to it; numbers and numeric strings without a suffix are pixels.", "quantifier": "every integer magnitude and each built-in unit suffix (including suffixes that are suffixes of other suffixes such as in/vmin, rad/grad)", "why_tests_cant": "unboundedly many numerals; the parser scans a suffix table in order", "anchors": ["src/colosseum/parser.py:units", "src/colosseum/units.py:BaseUnit.__repr__", "src/colosseum/units.py:BaseUnit.UNITS"]}
{"id": "C07", "title": "Parsing a length does not depend on which lengths were created before", "statement": "The result of parsing a string (or number) as a length is the same whatever units and lengths the program has created earlier, although every created length is recorded in a global registry that the parser scans.", "quantifier": "all input strings and all histories of unit creation by multiplication, negation and parsing", "why_tests_cant": "quantifies over all program histories", "anchors": ["src/colosseum/parser.py:units", "src/colosseum/units.py:BaseUnit.UNITS", "src/colosseum/units.py:BaseUnit.__rmul__"]}
{"id": "C08", "title": "A value accepted as a length is a length", "statement": "Every value accepted for a length-valued property is a length that can be converted to pixels in any context (no angle, infinity or NaN is accepted).", "quantifier": "all input values", "why_tests_cant": "all strings", "anchors": ["src/colosseum/parser.py:units", "src/colosseum/validators.py:is_length", "src/colosseum/units.py:AngleUnit"]}
{"id": "C09", "title": "Short and long hex colours agree", "statement": "'#RGB' denotes the same colour as '#RRGGBB' and '#RGBA' the same as '#RRGGBBAA'; a short hex string is accepted exactly when its characters are hexadecimal digits.", "quantifier": "all strings of the stated lengths", "why_tests_cant": "all strings over the character set", "anchors": ["src/colosseum/parser.py:pound_sign_color"]}
{"id": "C10", "title": "Hex colours denote their digits and stay in range", "statement": "A '#RRGGBB' or '#RRGGBBAA' string is accepted exactly when its characters are hexadecimal digits, and its components are the base-16 values of the digit pairs, in 0..255 (alpha in 0..1).", "quantifier": "all strings starting with '#'", "why_tests_cant": "all strings", "anchors": ["src/colosseum/parser.py:pound_sign_color", "src/colosseum/parser.py:color"]}
{"id": "C11", "title": "Colour names are case-insensitive and match CSS", "statement": "Every CSS named colour, in any letter case, parses to the RGB triple the CSS specification gives for it, and no other identifier-like string parses as a named colour.", "quantifier": "all 148 names in all letter cases, all strings", "why_tests_cant": "2^n letter casings per name; all other strings", "anchors": ["src/colosseum/parser.py:color", "src/colosseum/colors.py:NAMED_COLOR"]}
{"id": "C12", "title": "HSL colours convert to RGB as CSS defines", "statement": "hsl(h,s,l).rgb equals the CSS Color 3 HSL-to-RGB algorithm rounded to 0..255, for hue in [0,360], saturation and lightness in [0,1].", "quantifier": "all rational hues, saturations and lightnesses in range", "why_tests_cant": "continuous input space; the tests only sample hues at multiples of 60 degrees where adjacent formulas agree", "anchors": ["src/colosseum/colors.py:hsl.rgb"]}
{"id": "C13", "title": "HSL conversion never leaves the RGB cube", "statement": "For every hue (any number) and saturation, lightness in [0,1] the converted components are integers in 0..255 and alpha is preserved; hue is periodic with period 360.", "quantifier": "all hues, saturations, lightnesses", "why_tests_cant": "continuous input space", "anchors": ["src/colosseum/colors.py:hsl.rgb"]}
{"id": "C14", "title": "Functional colour notation denotes its arguments", "statement": "Parsing 'rgb(r, g, b)', 'rgba(r, g, b, a)', 'hsl(h, s%, l%)' and 'hsla(...)' yields exactly the written components, for any amount of blank space around the numbers; wrong argument counts and non-numeric arguments are rejected, as are unbalanced parentheses.", "quantifier": "all integers and all blank paddings", "why_tests_cant": "unbounded", "anchors": ["src/colosseum/parser.py:color"]}
{"id": "C15", "title": "Validation does not depend on hash order", "statement": "The outcome of assigning any value to any property is the same for every iteration order of the sets the library iterates over (i.e. for every PYTHONHASHSEED).", "quantifier": "all permutations of the choice sets, all values", "why_tests_cant": "one interpreter run sees one order", "anchors": ["src/colosseum/constants.py:Choices.validate", "src/colosseum/constants.py:Choices.__init__"]}
{"id": "C16", "title": "Validated values are normal forms", "statement": "Assigning to a property the value just read back from it is accepted and does not change it.", "quantifier": "all properties, all accepted values", "why_tests_cant": "all values", "anchors": ["src/colosseum/constants.py:Choices.validate", "src/colosseum/declaration.py:validated_property", "src/colosseum/parser.py:border_spacing", "src/colosseum/parser.py:rect", "src/colosseum/parser.py:quotes", "src/colosseum/parser.py:cursor"]}
{"id": "C17", "title": "Invalid values are rejected with ValueError", "statement": "Assigning an unacceptable value to a property raises ValueError, never another exception type.", "quantifier": "all properties, all Python values", "why_tests_cant": "all values", "anchors": ["src/colosseum/declaration.py:validated_property", "src/colosseum/validators.py:_numeric_validator", "src/colosseum/parser.py:color", "src/colosseum/parser.py:rect", "src/colosseum/parser.py:border_spacing", "src/colosseum/parser.py:cursor", "src/colosseum/parser.py:quotes"]}
{"id": "C18", "title": "Set then get returns the validated value", "statement": "After a successful assignment to a property, reading it returns a value equal to the validated form of what was assigned.", "quantifier": "all reachable declarations, all properties, all accepted values", "why_tests_cant": "all histories", "anchors": ["src/colosseum/declaration.py:validated_property"]}
{"id": "C19", "title": "Setting one property changes no other", "statement": "Assigning or deleting a longhand property leaves every other longhand property reading as before (except defaults defined as following another property).", "quantifier": "all reachable declarations, all pairs of properties", "why_tests_cant": "all histories and pairs", "anchors": ["src/colosseum/declaration.py:validated_property"]}
{"id": "C20", "title": "Failed assignments leave the declaration unchanged", "statement": "If assigning to a property, to a directional property, to a shorthand, or calling update() raises because of the value, the declaration reads exactly as before.", "quantifier": "all declarations, all properties, all rejected values", "why_tests_cant": "all values and histories; crash point inside multi-step setters", "anchors": ["src/colosseum/declaration.py:validated_property", "src/colosseum/declaration.py:directional_property", "src/colosseum/declaration.py:validated_shorthand_property", "src/colosseum/declaration.py:CSS.update"]}
{"id": "C21", "title": "Dirty tracking of style changes is exact", "statement": "Assigning a longhand property on a style bound to a laid-out node marks that node's layout dirty if and only if the stored value changes; failed assignments never do; deleting marks it dirty iff the property had been set.", "quantifier": "all declarations, properties, values", "why_tests_cant": "all histories", "anchors": ["src/colosseum/declaration.py:validated_property", "src/colosseum/declaration.py:CSS.dirty"]}
{"id": "C22", "title": "Deleting restores the initial value", "statement": "After del style.p (or style.update(p=None)) the property reads as its initial value whatever happened before; deleting twice is harmless.", "quantifier": "all declarations, all properties", "why_tests_cant": "all histories", "anchors": ["src/colosseum/declaration.py:validated_property", "src/colosseum/declaration.py:CSS.update", "src/colosseum/declaration.py:CSS.__delitem__"]}
{"id": "C23", "title": "Directional shorthands expand 1-4 values clockwise", "statement": "margin/padding/border_width/border_color/border_style accept one value or a tuple of 1 to 4 values and set top, right, bottom, left as CSS prescribes; other tuple lengths are rejected; reading returns the four sides.", "quantifier": "all directional properties and all tuples", "why_tests_cant": "all tuples of values", "anchors": ["src/colosseum/declaration.py:directional_property"]}
{"id": "C24", "title": "Border and outline shorthand parts may come in any order", "statement": "A border/outline shorthand accepts at most one width, one style and one colour in any order, gives the same declaration for every order, and resets the components that are not mentioned.", "quantifier": "all lists of parts and all their permutations", "why_tests_cant": "all permutations of all values", "anchors": ["src/colosseum/parser.py:border", "src/colosseum/parser.py:outline", "src/colosseum/parser.py:_parse_border_property_part", "src/colosseum/parser.py:_parse_outline_property_part", "src/colosseum/declaration.py:validated_shorthand_property"]}
{"id": "C25", "title": "Shorthands read back what was set", "statement": "Reading a shorthand after setting it returns the components that were set to non-default values; reading `border` after setting it returns its components.", "quantifier": "all accepted shorthand values", "why_tests_cant": "all values", "anchors": ["src/colosseum/declaration.py:validated_shorthand_property", "src/colosseum/wrappers.py:Shorthand", "src/colosseum/wrappers.py:Border"]}
{"id": "C26", "title": "Property names: dashes, underscores, unknown names", "statement": "style['a-b'] and style['a_b'] are the same property; unknown names raise KeyError (NameError in update()) without changing anything; update(**d) is the sequence of its item assignments and deletions.", "quantifier": "all strings as names, all dictionaries", "why_tests_cant": "all strings", "anchors": ["src/colosseum/declaration.py:CSS.update", "src/colosseum/declaration.py:CSS.__getitem__", "src/colosseum/declaration.py:CSS.__setitem__", "src/colosseum/declaration.py:CSS.__delitem__"]}
{"id": "C27", "title": "keys(), items() and str() describe exactly the declared properties", "statement": "keys() is the set of longhands that have been set and not deleted; items() lists each once with the value reading returns; str() is sorted by name, independent of hash order, and never lists shorthands.", "quantifier": "all reachable declarations, all set orders", "why_tests_cant": "all histories, hash orders", "anchors": ["src/colosseum/declaration.py:CSS.items", "src/colosseum/declaration.py:CSS.keys", "src/colosseum/declaration.py:CSS.__str__"]}
{"id": "C28", "title": "copy() is faithful and independent", "statement": "For every declaration, copy() succeeds and yields a declaration whose every property reads equal to the original's; later changes to either do not affect the other.", "quantifier": "all reachable declarations", "why_tests_cant": "all histories", "anchors": ["src/colosseum/declaration.py:CSS.copy", "src/colosseum/parser.py:border_spacing", "src/colosseum/parser.py:rect", "src/colosseum/parser.py:quotes", "src/colosseum/parser.py:cursor"]}
{"id": "C29", "title": "Derived defaults follow their source property", "statement": "While unset, each border colour reads as the current `color`, and text_align reads left or right according to `direction`; once set they no longer follow.", "quantifier": "all reachable declarations", "why_tests_cant": "all histories", "anchors": ["src/colosseum/constants.py:OtherProperty", "src/colosseum/constants.py:TextAlignInitialValue", "src/colosseum/declaration.py:validated_property"]}
{"id": "C30", "title": "Declared values always have the type the layout engine expects", "statement": "After any sequence of successful or failed operations on a declaration, every property read by the layout engine holds one of the documented kinds of value (keyword of that property, or a length).", "quantifier": "all operation sequences", "why_tests_cant": "all histories", "anchors": ["src/colosseum/declaration.py:CSS", "src/colosseum/constants.py:Choices.validate"]}
{"id": "C31", "title": "Cursor values: any number of URLs, then at most one keyword, last", "statement": "A cursor value is accepted exactly when it is a list of url(...) items optionally followed by one cursor keyword, and parsing preserves the order.", "quantifier": "all sequences and comma separated strings", "why_tests_cant": "all lists", "anchors": ["src/colosseum/parser.py:cursor", "src/colosseum/validators.py:is_cursor"]}
{"id": "C32", "title": "url() spelling does not matter", "statement": "url(x), url('x'), url(\"x\"), with any blanks inside the parentheses or around, denote the same URL x (x without quotes/blanks at its ends), and str() of the result parses back to it.", "quantifier": "all URL texts and blank paddings", "why_tests_cant": "all strings", "anchors": ["src/colosseum/parser.py:uri", "src/colosseum/wrappers.py:Uri"]}
{"id": "C33", "title": "rect() accepts commas or spaces and keeps the CSS order", "statement": "rect(a, b, c, d) and rect(a b c d) denote the same shape whose top, right, bottom, left are a, b, c, d; anything but four lengths is rejected.", "quantifier": "all quadruples of lengths, all strings", "why_tests_cant": "all strings", "anchors": ["src/colosseum/parser.py:rect", "src/colosseum/shapes.py:Rect"]}
{"id": "C34", "title": "border-spacing takes one or two lengths", "statement": "One length sets both axes, two set horizontal then vertical; the string, number and sequence forms agree; other counts are rejected.", "quantifier": "all inputs", "why_tests_cant": "all lists", "anchors": ["src/colosseum/parser.py:border_spacing", "src/colosseum/wrappers.py:BorderSpacing"]}
{"id": "C35", "title": "quotes takes a non-empty even number of non-empty strings", "statement": "A sequence of pairs of non-empty strings is accepted and yields those pairs by level; odd or empty lists and empty strings are rejected with ValueError; level lookups outside range raise IndexError.", "quantifier": "all sequences", "why_tests_cant": "all lists", "anchors": ["src/colosseum/parser.py:quotes", "src/colosseum/wrappers.py:Quotes"]}
{"id": "C36", "title": "Immutable lists never change", "statement": "No sequence of list operations on an ImmutableList/Cursor value changes its contents.", "quantifier": "all operation sequences", "why_tests_cant": "all sequences of operations", "anchors": ["src/colosseum/wrappers.py:ImmutableList"]}
{"id": "C37", "title": "Content, padding and border boxes are properly nested", "statement": "For every box, right-left = width and bottom-top = height for the content, padding and border boxes, each box extends the previous one by exactly its padding/border on each side, and with non-negative paddings and borders content is inside padding is inside border.", "quantifier": "all box states with numeric sizes", "why_tests_cant": "all numbers", "anchors": ["src/colosseum/dimensions.py:Box.border_box_width", "src/colosseum/dimensions.py:Box.padding_box_width", "src/colosseum/dimensions.py:Box.border_box_top"]}
{"id": "C38", "title": "Absolute coordinates are origin plus relative coordinates", "statement": "Every absolute_* coordinate equals the box's origin plus the corresponding relative coordinate, for all three boxes and four sides.", "quantifier": "all box states", "why_tests_cant": "all numbers", "anchors": ["src/colosseum/dimensions.py:Box.absolute_border_box_top", "src/colosseum/dimensions.py:Box.absolute_padding_box_left", "src/colosseum/dimensions.py:Box.absolute_content_right"]}
{"id": "C39", "title": "Moving a box moves its descendants", "statement": "In every tree of boxes, after any sequence of position assignments and resets, each child's absolute position is its parent's absolute content position plus its own relative position.", "quantifier": "all trees, all sequences of box operations", "why_tests_cant": "all histories on all trees", "anchors": ["src/colosseum/dimensions.py:Box.content_top", "src/colosseum/dimensions.py:Box._origin_top", "src/colosseum/dimensions.py:Box.reset"]}
{"id": "C40", "title": "Collapsed margin extents only grow and equal the largest margin", "statement": "A box's collapse extent on a side never decreases until reset and equals the maximum of zero and the whole-number margins assigned to that side.", "quantifier": "all sequences of assignments", "why_tests_cant": "all histories", "anchors": ["src/colosseum/dimensions.py:Box.margin_top", "src/colosseum/dimensions.py:Box.collapse_top"]}
{"id": "C41", "title": "Invalidating a node invalidates its whole subtree", "statement": "After node.layout.dirty = True (by a style or intrinsic size change), every descendant's layout is dirty.", "quantifier": "all trees, all histories of dirty assignments", "why_tests_cant": "all histories", "anchors": ["src/colosseum/dimensions.py:Box.dirty", "src/colosseum/dimensions.py:Size.dirty", "src/colosseum/declaration.py:CSS.dirty"]}
{"id": "C42", "title": "Intrinsic size changes mark the layout dirty exactly when the value changes", "statement": "Assigning an intrinsic attribute marks the node dirty iff the new value differs from the old one.", "quantifier": "all attribute values", "why_tests_cant": "all values", "anchors": ["src/colosseum/dimensions.py:Size"]}
{"id": "C43", "title": "Horizontal box equation (CSS 2.1 10.3.3)", "statement": "After layout, for every in-flow non-replaced block in the document, margin-left + border-left + padding-left + width + padding-right + border-right + margin-right equals the content width of its containing block.", "quantifier": "all documents the engine accepts, all displays", "why_tests_cant": "all trees and styles", "anchors": ["src/colosseum/engine.py:calculate_block_non_replaced_normal_flow_width", "src/colosseum/engine.py:layout"]}
{"id": "C44", "title": "Auto margins centre the box", "statement": "A block with explicit width that fits and both horizontal margins auto gets equal margins using up the available space; one auto margin absorbs all the remaining space; auto margins are zero when the box does not fit or the width is auto.", "quantifier": "all blocks in all accepted documents", "why_tests_cant": "all numbers", "anchors": ["src/colosseum/engine.py:calculate_block_non_replaced_normal_flow_width"]}
{"id": "C45", "title": "min-width and max-width clamp the used width", "statement": "The used content width of a block is never below min-width, and never above max-width unless min-width demands it (min wins).", "quantifier": "all blocks in all accepted documents", "why_tests_cant": "all numbers", "anchors": ["src/colosseum/engine.py:calculate_block_non_replaced_normal_flow_width"]}
{"id": "C46", "title": "Over-constrained margins give way on the end side", "statement": "With explicit width and both margins explicit, ltr keeps margin-left and recomputes margin-right, rtl keeps margin-right; laying out a mirrored block under the opposite direction gives mirrored margins.", "quantifier": "all blocks and styles", "why_tests_cant": "all numbers", "anchors": ["src/colosseum/engine.py:calculate_block_non_replaced_normal_flow_width"]}
{"id": "C47", "title": "Block children are stacked without overlap, separated by collapsed margins", "statement": "In a block formatting context the first child's border box starts at the parent's content top, and each following child's border box starts at the previous one's bottom plus the larger of the previous bottom margin and its own top margin.", "quantifier": "all accepted documents, all sibling lists", "why_tests_cant": "lists of arbitrary length and nesting", "anchors": ["src/colosseum/engine.py:layout_box"]}
{"id": "C48", "title": "Auto height encloses the children", "statement": "A block with auto height and children is exactly as tall as the bottom border edge of its last child; if all margins are non-negative every static child's border box lies within the parent's content box; without children it has its min-height or 0.", "quantifier": "all accepted documents", "why_tests_cant": "all trees", "anchors": ["src/colosseum/engine.py:calculate_block_non_replaced_normal_flow_height", "src/colosseum/engine.py:layout_box"]}
{"id": "C49", "title": "Explicit height is respected and limited by min-height/max-height", "statement": "A block with explicit height h has used height min(h, max-height), percentages resolving against the parent's explicit height, and never less than min-height.", "quantifier": "all accepted documents", "why_tests_cant": "all numbers", "anchors": ["src/colosseum/engine.py:calculate_block_non_replaced_normal_flow_height"]}
{"id": "C50", "title": "The root box fits the display", "statement": "In HTML5 mode the root's content height plus its collapsed top and bottom margins equals the display height; in HTML4 mode it keeps its natural height; the root is shifted down by exactly its collapsed top margin.", "quantifier": "all accepted documents and displays", "why_tests_cant": "all trees", "anchors": ["src/colosseum/engine.py:layout"]}
{"id": "C51", "title": "Absolute positions are consistent after layout", "statement": "After a successful layout of a document whose nodes all have boxes, every displayed node's absolute content position is the sum of the relative positions of its ancestors and itself.", "quantifier": "all documents, all displays", "why_tests_cant": "all trees", "anchors": ["src/colosseum/engine.py:layout", "src/colosseum/dimensions.py:Box._origin_top"]}
{"id": "C52", "title": "Layout depends only on the document, not on history", "statement": "Two layouts of the same styles, intrinsic sizes and display give the same result whatever was in the boxes before (earlier layouts, failed layouts, manual changes); in particular layout is idempotent.", "quantifier": "all documents, all previous box states", "why_tests_cant": "all histories and crash points", "anchors": ["src/colosseum/engine.py:layout", "src/colosseum/dimensions.py:Box.reset"]}
{"id": "C53", "title": "Layout never modifies its inputs", "statement": "layout() changes no style, intrinsic size or tree structure, whether it succeeds or raises.", "quantifier": "all documents, all failure points", "why_tests_cant": "all crash points", "anchors": ["src/colosseum/engine.py:layout_box"]}
{"id": "C54", "title": "Every supported document can be laid out", "statement": "For every document made of in-flow block-level non-replaced nodes with convertible lengths, layout() terminates without raising, at any size and depth.", "quantifier": "all such documents", "why_tests_cant": "unbounded trees", "anchors": ["src/colosseum/engine.py:layout", "src/colosseum/engine.py:layout_box"]}
{"id": "C55", "title": "Unsupported features are reported, never silently laid out", "statement": "If any node that would be laid out is floated, absolutely positioned, inline-block, a replaced block, or has an unsupported display type, layout() raises.", "quantifier": "all documents", "why_tests_cant": "all trees", "anchors": ["src/colosseum/engine.py:calculate_width_and_margins", "src/colosseum/engine.py:calculate_height_and_margins"]}
{"id": "C56", "title": "display: none removes a node without affecting the rest", "statement": "Layout succeeds for documents containing hidden nodes, hidden nodes have no box, and the remaining nodes are laid out as if the hidden ones were absent.", "quantifier": "all documents with hidden nodes", "why_tests_cant": "all trees", "anchors": ["src/colosseum/engine.py:layout_box", "src/colosseum/engine.py:anonymize"]}
{"id": "C57", "title": "Relative positioning shifts a box by its offsets and nothing else", "statement": "A relatively positioned block is laid out like the same static block, then moved by left/-right and top/-bottom; its size, its siblings and its parent's height do not change.", "quantifier": "all accepted documents", "why_tests_cant": "all trees", "anchors": ["src/colosseum/engine.py:layout_box"]}
{"id": "C58", "title": "Inline replaced elements keep their intrinsic size and ratio", "statement": "An inline replaced element uses its intrinsic width/height when both style sizes are auto, specified sizes when given, derives a missing dimension from the ratio (width = height * ratio), and falls back to 300 wide and at most 150 high.", "quantifier": "all intrinsic sizes and styles", "why_tests_cant": "all numbers", "anchors": ["src/colosseum/engine.py:calculate_inline_replaced_width", "src/colosseum/engine.py:calculate_inline_replaced_height"]}
{"id": "C59", "title": "All displayed content is laid out", "statement": "Every child that is displayed is laid out, also when inline and block children are mixed.", "quantifier": "all documents", "why_tests_cant": "all sibling lists", "anchors": ["src/colosseum/engine.py:anonymize", "src/colosseum/engine.py:layout_box"]}
{"id": "C60", "title": "Positive lengths give non-negative sizes", "statement": "Non-negative lengths in any unit lead to non-negative used margins, paddings, borders and heights.", "quantifier": "all documents", "why_tests_cant": "all units and contexts", "anchors": ["src/colosseum/engine.py:DummyFont", "src/colosseum/engine.py:calculate_size"]}
{"id": "C61", "title": "Collapsed top margin is the maximum along the first-child chain", "statement": "After layout a block's collapsed top extent is the maximum of zero, its own whole-pixel top margin and its first block child's collapsed top extent; sibling gaps use that extent.", "quantifier": "all accepted documents", "why_tests_cant": "unbounded nesting", "anchors": ["src/colosseum/engine.py:layout_box", "src/colosseum/dimensions.py:Box.collapse_top"]}
{"id": "C62", "title": "Re-displaying a hidden node restores its layout", "statement": "Hiding a node, laying out, showing it again and laying out gives the same result as never hiding it.", "quantifier": "all documents and hide/show histories", "why_tests_cant": "all histories", "anchors": ["src/colosseum/engine.py:layout_box", "src/colosseum/dimensions.py:Box.__init__", "src/colosseum/declaration.py:CSS.dirty"]}
{"id": "C63", "title": "Borders without a style take no space", "statement": "A border whose border-style is none contributes zero to the box model, as CSS 2.1 8.5.3 requires.", "quantifier": "all styles", "why_tests_cant": "all styles", "anchors": ["src/colosseum/engine.py:layout_box"]}
{"id": "C64", "title": "Pixel documents do not depend on resolution", "statement": "A document whose lengths are all in px is laid out identically at every dpi and font, and in HTML4 mode at every display height.", "quantifier": "all pixel-only documents, all dpis", "why_tests_cant": "all trees, all dpis", "anchors": ["src/colosseum/engine.py:layout", "src/colosseum/units.py:PixelUnit"]}
{"id": "C65", "title": "Horizontal geometry of a block does not depend on its siblings or children", "statement": "The margins, paddings, borders, width and horizontal position of a block depend only on its own style, the display and its containing block's sizes.", "quantifier": "all documents", "why_tests_cant": "all contexts", "anchors": ["src/colosseum/engine.py:layout_box", "src/colosseum/engine.py:calculate_width_and_margins"]}
{"id": "C66", "title": "Percentages resolve against the right axis", "statement": "Percentage margins and paddings of a block resolve against the containing block's width (CSS 2.1 8.3, 8.4), so opposite sides with equal percentages are equal.", "quantifier": "all documents", "why_tests_cant": "all numbers", "anchors": ["src/colosseum/engine.py:layout_box", "src/colosseum/engine.py:calculate_size"]}
{"id": "C67", "title": "After layout the document is clean", "statement": "After a successful layout(), no displayed node's layout is dirty.", "quantifier": "all documents", "why_tests_cant": "all trees", "anchors": ["src/colosseum/engine.py:layout", "src/colosseum/dimensions.py:Box.dirty", "src/colosseum/dimensions.py:Box._reset"]}
{"id": "C68", "title": "Moving boxes and resetting the document keeps positions consistent", "statement": "In every tree of boxes whose positions are consistent, after any sequence of assignments to content_top/content_left of any nodes, of dirty flags, and of resets of the root's layout, each child's absolute position is its parent's absolute content position plus its own relative position (also across nodes without a layout).", "quantifier": "all consistent trees, all sequences of position assignments anywhere and of root resets", "why_tests_cant": "Origins are pushed to descendants incrementally and only when a value changes; a stale origin needs a particular combination of tree shape and operation order.", "anchors": ["src/colosseum/dimensions.py:180-291"]}
{"id": "C69", "title": "With pixel margins the collapse extent is the largest whole margin", "statement": "If every number assigned to the margins of a freshly reset box is an int or a fractional float (as px() returns them), each collapse extent equals the maximum of zero and the ints assigned to that side.", "quantifier": "all sequences of margin and extent assignments of such numbers", "why_tests_cant": "The setters compare before storing and ignore floats; the invariant is about all orders of assignments.", "anchors": ["src/colosseum/dimensions.py:293-367"]}
{"id": "C70", "title": "Invalidating a node reaches its whole subtree when cleaning is done at the root", "statement": "Starting from a tree in which everything below a dirty node is dirty, and after any history of box operations in which dirtiness other than True is only assigned at the root, setting a node's layout dirty makes every descendant reachable through laid-out nodes dirty.", "quantifier": "all trees, all such histories, all nodes", "why_tests_cant": "The dirty setter stops at nodes whose flag already has the new value, so correctness depends on an invariant of the whole tree and history.", "anchors": ["src/colosseum/dimensions.py:536-553"]}
{"id": "C71", "title": "Horizontal equation up to centring", "statement": "After layout, for every block-level node that takes part in layout, the seven horizontal lengths add up exactly to the content width of its containing block, except that a block with explicit width between two auto margins may fall short by less than two pixels.", "quantifier": "all documents the engine accepts, all displays, all laid-out block-level nodes", "why_tests_cant": "The numbers of pixels, paddings, units and nesting are unbounded; tests check a few documents.", "anchors": ["src/colosseum/engine.py:410-548"]}
{"id": "C72", "title": "Auto margins, exactly", "statement": "For every laid-out block: auto margins count as zero when the width is auto; a single auto margin of a fitting block absorbs exactly the remaining space; two auto margins of a fitting block are equal, non-negative and lose less than two pixels; when the block does not fit, the start-side margin (auto counting as zero) is kept and the end-side margin is the exact remainder.", "quantifier": "all blocks of all accepted documents", "why_tests_cant": "Unbounded styles, widths and nesting.", "anchors": ["src/colosseum/engine.py:422-548"]}
{"id": "C73", "title": "Explicit widths are clamped exactly", "statement": "The used width of every block with explicit width is that width limited by max-width and then by min-width (min wins).", "quantifier": "all blocks with explicit width of all accepted documents", "why_tests_cant": "Unbounded combinations of units and limits.", "anchors": ["src/colosseum/engine.py:411-421"]}
{"id": "C74", "title": "Horizontal geometry is local", "statement": "In documents whose displayed nodes have boxes, two static blocks with the same style, display, containing width and percentage height reference have the same paddings, borders, margins, width and horizontal position, whatever documents they are in.", "quantifier": "all pairs of accepted documents and blocks", "why_tests_cant": "Quantifies over pairs of documents.", "anchors": ["src/colosseum/engine.py:165-208", "src/colosseum/engine.py:410-548"]}
{"id": "C75", "title": "Block children are stacked by collapsed extents", "statement": "In documents whose displayed nodes have boxes, the block-level children of a block formatting context come first and are stacked from the top of the parent's content box: the first border box (if static) starts at the top, every other static one at the bottom of the stack so far plus the larger of the previous collapsed bottom extent and its own top margin.", "quantifier": "all accepted documents and sibling lists", "why_tests_cant": "Quantifies over sibling lists of any length and trees of any depth.", "anchors": ["src/colosseum/engine.py:210-262", "src/colosseum/dimensions.py:293-367"]}
{"id": "C76", "title": "Auto height encloses static block children", "statement": "A block container of auto height in a block formatting context whose children are all static block-level boxes of non-negative border box height contains the border box of every child between the top and the bottom of its content box.", "quantifier": "all accepted documents", "why_tests_cant": "Quantifies over trees of any size.", "anchors": ["src/colosseum/engine.py:210-262", "src/colosseum/engine.py:662-703"]}
{"id": "C77", "title": "Explicit height is exact up to max-height", "statement": "A block with a specified height has exactly this height or its max-height, whichever is smaller; percentages refer to the specified height of the parent when it has one, otherwise to the height the parent had when the child was laid out.", "quantifier": "all accepted documents", "why_tests_cant": "Quantifies over nested percentages and limits.", "anchors": ["src/colosseum/engine.py:689-703"]}
{"id": "C78", "title": "Collapsed extents of a block", "statement": "After layout the collapsed top extent of a block is the maximum of zero, its own whole-pixel top margin and the extent of the first child of its block formatting context; its collapsed bottom extent is the maximum of zero, its whole-pixel bottom margin and, for auto height, the extent of its last child.", "quantifier": "all accepted documents", "why_tests_cant": "The maximum runs through chains of any depth.", "anchors": ["src/colosseum/engine.py:210-262", "src/colosseum/engine.py:670-688", "src/colosseum/dimensions.py:293-367"]}
{"id": "C79", "title": "Layout of a fully boxed document forgets all history", "statement": "If every node has a box, the result of layout (boxes and outcome) depends only on styles, intrinsic sizes, structure, display and mode, not on previous box contents; for documents without hidden nodes any sequence of earlier successful or failed layouts leaves the result of the next layout unchanged.", "quantifier": "all documents, all previous box states, all histories of layouts with any displays and modes", "why_tests_cant": "The state space of previous box contents and layout histories is unbounded.", "anchors": ["src/colosseum/engine.py:107-129", "src/colosseum/dimensions.py:185-229"]}
{"id": "C80", "title": "Layout never marks a block box clean", "statement": "After a successful layout of a document whose displayed nodes all own a box, the box of every laid out block is still marked dirty: no layout pass ever clears the dirty flag of a block box.", "quantifier": "for every document, every display and every block node that the pass laid out", "why_tests_cant": "A test checks the flag on one tree; the claim is about every laid out node of every document.", "anchors": ["src/colosseum/engine.py:107-129", "src/colosseum/dimensions.py:1-60"]}
{"id": "C81", "title": "Exact used size of inline replaced elements", "statement": "The used width and height of an inline replaced element are given by the following table: a specified width/height is used (converted against the containing block); with both sizes auto the intrinsic width/height is used; a missing width is intrinsic height times ratio rounded to the nearest pixel, or, with a ratio but no intrinsic dimension, the available width of the containing block, or 300; a missing height is width times ratio (as coded), or the intrinsic height, or the smaller of 150 and half the width.", "quantifier": "all documents in normal flow whose layout succeeds, all inline replaced nodes laid out in them, all combinations of specified and intrinsic sizes", "why_tests_cant": "Eight optional inputs combine with every containing block; the upstream tests check a handful of literal cases and skip the ratio ones.", "anchors": ["src/colosseum/engine.py:calculate_inline_replaced_width", "src/colosseum/engine.py:calculate_inline_replaced_height"]}
{"id": "C82", "title": "Used vertical margins are the specified ones", "statement": "After a successful layout the used top and bottom margins of every block-level node are its specified margins converted in the vertical context of its containing block, and 0 for auto.", "quantifier": "all documents, all block-level nodes laid out, all margin values in all units", "why_tests_cant": "The margin is copied through several functions and the height phase may run twice; tests look at single boxes with pixel margins.", "anchors": ["src/colosseum/engine.py:calculate_height_and_margins", "src/colosseum/engine.py:calculate_block_non_replaced_normal_flow_height"]}
{"id": "C83", "title": "Exactly which read values can be assigned again", "statement": "For a reachable declaration and a longhand that has its own value, assigning the value just read back is accepted and changes no reading if and only if that value is not an angle, a BorderSpacing, Rect or Quotes object, or a cursor list containing a url.", "quantifier": "all reachable declarations, all longhands, all iteration orders", "why_tests_cant": "The tests assign literals; they never feed every possible read value of every property back, nor under every history of operations.", "anchors": ["src/colosseum/declaration.py:validated_property", "src/colosseum/constants.py:Choices.validate", "src/colosseum/parser.py:units"]}
{"id": "C84", "title": "The only values whose rejection is not a ValueError", "statement": "Assigning to a longhand fails with ValueError, except for: empty or hsl text given to a colour, an infinite float given to an integer property, a non-string given to clip, a value that is neither text, number nor sequence given to border-spacing, a value that is neither text nor sequence given to cursor, and text or sequences given to quotes.", "quantifier": "all declarations, longhands and values", "why_tests_cant": "Tests check that a few invalid literals raise ValueError; they cannot show that no other value raises anything else.", "anchors": ["src/colosseum/validators.py", "src/colosseum/parser.py", "src/colosseum/declaration.py:validated_property"]}
{"id": "C85", "title": "Failed longhand and border assignments change nothing", "statement": "If assigning to a longhand, to border or to border_top/right/bottom/left raises (and the declaration is not bound to a node without layout), the declaration is exactly as before, including the node's dirty flag.", "quantifier": "all declarations, all longhands and border shorthands, all values", "why_tests_cant": "Atomicity must hold for every value, including ones that parse as a shorthand but are refused by a longhand later.", "anchors": ["src/colosseum/declaration.py:validated_shorthand_property", "src/colosseum/parser.py:border"]}
{"id": "C86", "title": "Outline and one-sided borders read back their parts", "statement": "After a successful assignment to outline or border_top/right/bottom/left, reading it lists only parts that were given, with the value the longhand reads, and lists every part given whose validated value differs from the initial one.", "quantifier": "all reachable declarations, all accepted shorthand values", "why_tests_cant": "Tests read back a few literal combinations on fresh declarations only.", "anchors": ["src/colosseum/declaration.py:validated_shorthand_property", "src/colosseum/wrappers.py:Shorthand"]}
{"id": "C87", "title": "Exactly which texts are lengths", "statement": "A text is accepted as a length exactly when it is a text float() accepts, alone (pixels) or followed by the suffix of one of the 18 built-in units, and its value is that number of that unit; every other text is rejected with ValueError.", "quantifier": "all strings", "why_tests_cant": "The parser tries every registered suffix in turn and float() accepts exponents, underscores, blanks, inf and nan; suffixes overlap (in/vmin, rad/grad). No finite set of strings shows that no overlap misparses.", "anchors": ["src/colosseum/parser.py:units", "src/colosseum/units.py:BaseUnit"]}
{"id": "C88", "title": "Which accepted lengths convert to pixels", "statement": "A text or number accepted as a length converts to pixels in every context that has a reference size exactly when its magnitude is finite and its unit is not an angle.", "quantifier": "all strings and numbers, all contexts", "why_tests_cant": "Quantifies over all inputs and all displays, fonts and reference sizes.", "anchors": ["src/colosseum/parser.py:units", "src/colosseum/units.py:Unit.px"]}
{"id": "C89", "title": "Exactly which '#' texts are colours", "statement": "A text starting with '#' is accepted exactly when it is followed by three or four single characters (each standing for itself twice) or three or four pairs, and every pair is two hexadecimal digits, a sign and a digit, or a digit with one blank beside it; the components are the values of the pairs, alpha is the last one divided by 255; anything else raises ValueError.", "quantifier": "all texts starting with '#'", "why_tests_cant": "Unbounded set of texts; the accepted pairs are 65536 combinations per component.", "anchors": ["src/colosseum/parser.py:pound_sign_color", "src/colosseum/parser.py:color"]}
{"id": "C90", "title": "HSL hues strictly between 240 and 300 degrees exchange red and green", "statement": "For a hue strictly between 240 and 300 degrees and saturation, lightness in [0,1], hsl(...).rgb is the CSS result with red and green exchanged.", "quantifier": "all rational hues in (240,300), all saturations and lightnesses in range", "why_tests_cant": "Continuous range of inputs.", "anchors": ["src/colosseum/colors.py:hsl.rgb"]}
{"id": "C91", "title": "The delimiters of functional colours are ignored", "statement": "In rgb(...), rgba(...), hsl(...), hsla(...) the character after the name and the last character of the text are never examined: replacing them by any other characters (except an 'a' after rgb/hsl) does not change the result.", "quantifier": "all argument texts, all delimiter characters", "why_tests_cant": "All argument texts and all pairs of characters.", "anchors": ["src/colosseum/parser.py:color"]}
{"id": "C92", "title": "Hues outside the circle are taken modulo 120 degrees", "statement": "For a hue below -60 or at least 300 degrees, the conversion to rgb gives the same colour as for the hue plus 120 degrees.", "quantifier": "all rational hues outside [-60,300), all saturations and lightnesses", "why_tests_cant": "Unbounded range of hues.", "anchors": ["src/colosseum/colors.py:hsl.rgb"]}
{"id": "C93", "title": "rect() values are top, right, left, bottom", "statement": "For four length texts a, b, c, d, rect(a, b, c, d) with any blanks around the values and rect(a b c d) with any runs of blanks between them are accepted, and the resulting shape has top a, right b, left c and bottom d; every accepted text is, after blanks are collapsed, rect( four lengths ) separated by commas or by blanks.", "quantifier": "all quadruples of lengths, all blanks, all strings", "why_tests_cant": "all strings and spacings", "anchors": ["src/colosseum/parser.py:rect", "src/colosseum/shapes.py:Rect"]}
{"id": "C94", "title": "A flat sequence of strings given to quotes is read character by character", "statement": "quotes(('ab', 'cd')) is read as the characters of all the strings in order, taken two by two; it is rejected exactly when the total number of characters is zero or odd.", "quantifier": "all sequences of strings", "why_tests_cant": "all sequences", "anchors": ["src/colosseum/parser.py:quotes"]}
{"id": "C95", "title": "The text of a quotes value is read back", "statement": "str() of a Quotes value whose strings are non-empty and contain no space character parses back to the same pairs, whatever other characters (quotes, backslashes, controls) they contain.", "quantifier": "all lists of pairs of Latin-1 strings without the space character", "why_tests_cant": "all strings", "anchors": ["src/colosseum/parser.py:quotes", "src/colosseum/wrappers.py:Quotes"]}
{"id": "C96", "title": "Only del, +=, *= and clear can change an immutable list", "statement": "If a sequence of list operations changes the contents of an ImmutableList, one of them is del, +=, *= or clear; each of these has its usual list effect.", "quantifier": "all operation sequences", "why_tests_cant": "all sequences of operations", "anchors": ["src/colosseum/wrappers.py:ImmutableList"]}
{"id": "C97", "title": "Each operation changes keys() in exactly the described way", "statement": "A successful assignment to a longhand leaves every other key alone and adds its own name unless the new value equals the initial value of an unset property; deleting a property removes exactly the longhands it covers from keys().", "quantifier": "all declarations, properties, values and hash orders", "why_tests_cant": "all states and values", "anchors": ["src/colosseum/declaration.py:validated_property", "src/colosseum/declaration.py:CSS.keys"]}
{"id": "C98", "title": "Exactly which declarations copy() reproduces", "statement": "copy() raises ValueError exactly when the declaration stores a quotes value, a cursor with a URL or an angle; otherwise it succeeds, clip rectangles and border spacings read as initial in the copy, and every other longhand reads equal to the original.", "quantifier": "all reachable declarations, hash orders and target nodes", "why_tests_cant": "all histories", "anchors": ["src/colosseum/declaration.py:CSS.copy", "src/colosseum/parser.py:border_spacing", "src/colosseum/parser.py:rect", "src/colosseum/parser.py:quotes", "src/colosseum/parser.py:cursor", "src/colosseum/parser.py:units"]}
{"id": "C99", "title": "The engine sees exactly what reading the declaration shows", "statement": "After any history of operations, the typed values the engine uses (display, position, float, direction, sizes, limits, margins, paddings, border widths, offsets) exist, are the values that reading those properties shows, and no other set of values matches the readings.", "quantifier": "all operation histories, all iteration orders of sets", "why_tests_cant": "all histories", "anchors": ["src/colosseum/declaration.py:validated_property", "src/colosseum/engine.py:layout_box"]}
{"id": "C100", "title": "Layout depends only on the properties the engine reads", "statement": "Two documents of the same shape whose declarations read the same for the properties the engine reads get identical boxes and the same outcome, whatever the other properties (colours, cursor, border styles, quotes, ...) are and whatever the iteration order of sets.", "quantifier": "all pairs of documents, displays, html5 flag, iteration orders", "why_tests_cant": "unbounded documents and all values of unrelated properties", "anchors": ["src/colosseum/engine.py:layout", "src/colosseum/engine.py:layout_box", "src/colosseum/declaration.py:CSS"]}
{"id": "C101", "title": "A document with copied declarations is laid out the same", "statement": "If every declaration of a document is replaced by a copy() of it that succeeded, layout gives identical boxes and the same outcome, although the copy may not store values equal to the initial ones.", "quantifier": "all documents, all histories of the declarations, all displays", "why_tests_cant": "unbounded documents and histories", "anchors": ["src/colosseum/declaration.py:CSS.copy", "src/colosseum/engine.py:layout"]}
{"id": "C102", "title": "A clean layout is current", "statement": "If a program ran any operations on declarations of nodes whose layouts were clean, and those layouts are still clean afterwards, then laying out again gives exactly the result that laying out without those operations gives.", "quantifier": "all documents, all operation sequences including failing operations", "why_tests_cant": "unbounded operation sequences and documents", "anchors": ["src/colosseum/declaration.py:CSS.dirty", "src/colosseum/declaration.py:validated_property", "src/colosseum/declaration.py:validated_shorthand_property", "src/colosseum/declaration.py:directional_property"]}
{"id": "C103", "title": "Each property accepts exactly its own keywords and kind of value", "statement": "For every longhand property there is a fixed list of keywords and at most one kind of value (length, integer, colour, border spacing, clip rectangle, quotes, cursor). Assigning a value succeeds exactly when the value is one of the property's keywords (with 'none' and None being the same, for the properties that have it), or a value of the property's kind; the property then reads back as the keyword, or as the length or integer the value denotes. Lengths are numbers (pixels), number texts with or without one of the known units, and unit objects; integers are ints, finite floats cut towards zero and integer texts. Any other value makes the assignment fail and changes nothing.", "quantifier": "for every property, every value, every declaration any program can build, and every set iteration order", "why_tests_cant": "The tests try a handful of values for a few properties; the claim is about every property and every possible value, including the ones that must be rejected.", "anchors": ["src/colosseum/declaration.py:validated_property", "src/colosseum/constants.py:Choices", "src/colosseum/constants.py", "src/colosseum/validators.py:is_length", "src/colosseum/validators.py:is_integer"]}
{"id": "C104", "title": "Harmless hidden nodes are as good as absent", "statement": "If no hidden node (display: none) of a document stands before a block-level sibling in a block formatting context, and none is the last child of an auto-height block, then laying out the document gives all displayed nodes the same boxes (or the same exception, after the same partial effects) as laying out the document from which the hidden nodes were removed. A hidden child of a node without block-level children has no box after layout.", "quantifier": "all documents and displays", "why_tests_cant": "all trees, all positions of hidden nodes", "anchors": ["src/colosseum/engine.py:layout_box", "src/colosseum/engine.py:anonymize", "src/colosseum/engine.py:calculate_block_non_replaced_normal_flow_height"]}
{"id": "C105", "title": "Where a hidden node breaks the layout", "statement": "A hidden child that stands before a block-level sibling makes the layout of the document raise an exception, and so does a hidden last child of an auto-height block that has no block-level children. (With C104 this settles all positions of a hidden node except the last child of an auto-height block that has block-level children, which collapses that block.)", "quantifier": "all documents and displays", "why_tests_cant": "all trees", "anchors": ["src/colosseum/engine.py:layout_box", "src/colosseum/engine.py:anonymize", "src/colosseum/engine.py:calculate_block_non_replaced_normal_flow_height"]}
{"id": "C106", "title": "Layout terminates", "statement": "Layout always terminates: its recursion never goes deeper than the height of the document tree, whatever the styles and whatever the boxes held before.", "quantifier": "all documents and displays", "why_tests_cant": "all trees", "anchors": ["src/colosseum/engine.py:layout", "src/colosseum/engine.py:layout_box"]}
{"id": "C107", "title": "Layout stays on the 1/64 px grid", "statement": "If the sizes the display and replaced elements report are multiples of 1/64 px and intrinsic ratios are whole, every number held by every box after layout, and every coordinate derived from it, is a multiple of 1/64 px, whether layout completes or raises.", "quantifier": "all documents, styles and displays", "why_tests_cant": "a rounding leak shows only for particular combinations of sizes and tree shapes", "anchors": ["src/colosseum/engine.py:layout", "src/colosseum/units.py:Unit.px", "src/colosseum/dimensions.py:Box"]}
{"id": "C108", "title": "Layout arithmetic is exact in floating point", "statement": "Sums, differences and halves of multiples of 1/64 px below 2^46 px are computed exactly by binary64 arithmetic, so box coordinates accumulate no rounding error.", "quantifier": "all multiples of 1/64 px below 2^46 in absolute value", "why_tests_cant": "2^105 operand pairs", "anchors": ["src/colosseum/dimensions.py:Box", "src/colosseum/engine.py:calculate_block_non_replaced_normal_flow_width"]}
{"id": "C109", "title": "Length conversion in floating point", "statement": "With binary64 arithmetic as Python performs it, a length of ordinary size (below 2^42 px) converts to a whole number of 1/64 px within half a unit, plus a relative error of 2^-49, of the exact value; the result differs from exact arithmetic by at most 1/64 px and is exact when the exact value is itself a multiple of 1/64 px. Pixel lengths convert exactly.", "quantifier": "all units, magnitudes, displays and reference sizes of ordinary size", "why_tests_cant": "double rounding depends on the bit patterns of four operands", "anchors": ["src/colosseum/units.py:Unit.px", "src/colosseum/units.py:FontUnit.lu", "src/colosseum/units.py:AbsoluteUnit.lu", "src/colosseum/units.py:ViewportUnit.lu", "src/colosseum/units.py:Percent.lu"]}
{"id": "C110", "title": "Written decimals become the nearest double", "statement": "A length written as a decimal number followed by a unit (or by nothing, meaning px) has as magnitude the binary64 number nearest to the written value, ties to even, and the unit written.", "quantifier": "all decimal texts up to 2^1000 in absolute value, all units", "why_tests_cant": "infinitely many texts, with rounding boundaries between all of them", "anchors": ["src/colosseum/parser.py:units"]}
{"id": "C111", "title": "Layout of block documents equals the reference layout", "statement": "Laying out any document made of in-flow block, list-item and table nodes whose lengths are convertible succeeds, and every box then has exactly the used margins, borders, paddings, width, height, position, collapsed extents and origin that the reference layout (a recursive function of the styles alone: 10.3.3 width equation with over-constraint by direction, percentages against the containing block, vertical stacking with collapsed gaps, height from the last child, relative offsets) gives.", "quantifier": "all documents of block-level non-replaced in-flow nodes, any depth and branching, any styles with convertible lengths, any display, both layout modes, any stale boxes from an earlier layout", "why_tests_cant": "the space of style trees is infinite; fixtures compare single documents, and a wrong term in one of the 18 used values shows only for particular combinations of nesting, units and auto values", "anchors": ["src/colosseum/engine.py:layout", "src/colosseum/engine.py:layout_box", "src/colosseum/engine.py:calculate_block_non_replaced_normal_flow_width", "src/colosseum/engine.py:calculate_block_non_replaced_normal_flow_height", "src/colosseum/dimensions.py:Box"]}
{"id": "C112", "title": "Every successful layout is the reference layout", "statement": "Whenever layout of a document succeeds, each displayed node that takes part gets exactly the margins, borders, paddings, size, position and collapsed extents given by one recursive function of the computed styles and intrinsic sizes (the reference layout), every hidden node loses its box, and inline content after the last block of a block container keeps an all-zero box. The result does not depend on earlier layouts.", "quantifier": "all documents (blocks, inline boxes, replaced elements, hidden nodes, relative and inherited offsets), all displays, both HTML5 modes, any earlier consistent state of the boxes, whenever layout returns without raising", "why_tests_cant": "The fixture comparison covers a few hundred documents; this relates every document to an independent description of the geometry.", "anchors": ["src/colosseum/engine.py:layout", "src/colosseum/engine.py:layout_box", "src/colosseum/engine.py:calculate_width_and_margins", "src/colosseum/engine.py:calculate_height_and_margins"]}
{"id": "C113", "title": "The text of a stored value is read back as that value", "statement": "Assigning str(value) of a stored value (keyword, integer, length, rgb colour with integer components, border spacing, clip rectangle, quotes without blanks, cursor whose URLs contain no comma) to the same property succeeds, and the property then reads as a value with the same contents.", "quantifier": "all properties, all values stored by any history, all target declarations in which the property is unset or holds that value", "why_tests_cant": "all values and histories; needs printing, parsing and validation of every property kind to agree", "anchors": ["src/colosseum/units.py:BaseUnit.__str__", "src/colosseum/declaration.py:validated_property", "src/colosseum/wrappers.py:BorderSpacing.__str__", "src/colosseum/wrappers.py:Quotes.__str__", "src/colosseum/parser.py:units", "src/colosseum/parser.py:color"]}
{"id": "C114", "title": "Texts that cannot be read back are rejected", "statement": "The text of a stored None is \"None\", which every property rejects with ValueError leaving the declaration unchanged; the text of an hsl colour whose saturation is a float is rejected by every colour property, leaving the declaration unchanged.", "quantifier": "all properties, all declarations, all hsl colours with a float saturation", "why_tests_cant": "all colours and properties", "anchors": ["src/colosseum/colors.py:hsl.__repr__", "src/colosseum/parser.py:color", "src/colosseum/declaration.py:validated_property"]}
{"id": "C115", "title": "A declaration can be rebuilt from its text", "statement": "str(style) lists \"name: text\" for the stored values, the names with dashes and in order; updating an empty declaration with these names and texts, in any order, succeeds, and every property then reads as a value with the same contents as in the original.", "quantifier": "all declarations reachable by any history whose stored values have readable texts (see C113), all orders, names with dashes or underscores", "why_tests_cant": "all histories, all combinations of stored values", "anchors": ["src/colosseum/declaration.py:CSS.__str__", "src/colosseum/declaration.py:CSS.update", "src/colosseum/declaration.py:CSS.items"]}
{"id": "C116", "title": "A document rebuilt from the texts of its declarations has the same layout", "statement": "Replacing every declaration of a document by one rebuilt from the texts of its values gives the same layout: the same boxes, or the same failure.", "quantifier": "all documents, all declarations with readable values, all displays, both layout modes", "why_tests_cant": "all documents and declarations", "anchors": ["src/colosseum/declaration.py:CSS.__str__", "src/colosseum/declaration.py:CSS.update", "src/colosseum/engine.py:layout"]}
{"id": "C117", "title": "The text of a border or outline with a colour is rejected", "statement": "str(style.border_top) (or outline, any side) of a declaration whose colour component is an rgb colour cannot be assigned back: the assignment raises and changes nothing.", "quantifier": "all reachable declarations, all rgb colours with integer red component, all shorthands that print a colour, all styles and widths", "why_tests_cant": "all colours and component values", "anchors": ["src/colosseum/wrappers.py:Shorthand.__str__", "src/colosseum/parser.py:_parse_border_property_part", "src/colosseum/declaration.py:validated_shorthand_property"]}
{"id": "C118", "title": "Bounded number validators accept exactly the numbers in range", "statement": "is_number/is_integer with min and max accept a value exactly when it denotes a number (integer) between the bounds, NaN being let through by is_number, and return that number; otherwise they raise ValidationError, or OverflowError for integers beyond the doubles and for infinite floats given as integers.", "quantifier": "all bounds, all Python values of the model", "why_tests_cant": "all numbers, infinities and NaN, all texts", "anchors": ["src/colosseum/validators.py:is_number", "src/colosseum/validators.py:is_integer", "src/colosseum/validators.py:_numeric_validator"]}
{"id": "C119", "title": "The error message lists exactly the permitted values", "statement": "The list of valid values in the error of a rejected assignment is sorted, without repetition, and contains exactly the keywords of the property, the description of its kind of value, <percentage> where percentages are taken and, for colours, the text of the default object; it does not depend on hash order.", "quantifier": "all properties, all iteration orders of sets, all texts of the default object", "why_tests_cant": "all hash orders", "anchors": ["src/colosseum/constants.py:Choices.__str__", "src/colosseum/declaration.py:validated_property"]}
{"id": "C120", "title": "Shorthand objects hold exactly the named parts", "statement": "A shorthand object can be built exactly from arguments named in VALID_KEYS (ValueError otherwise), its dictionary holds exactly the arguments in the order of VALID_KEYS, two of them are equal exactly when they have the same class and equal arguments up to order, and reading a border side or outline always succeeds and gives exactly the stored components, or '' if there are none.", "quantifier": "all shorthands, all argument lists, all declarations", "why_tests_cant": "all argument lists and orders", "anchors": ["src/colosseum/wrappers.py:Shorthand.__init__", "src/colosseum/wrappers.py:Shorthand.__eq__", "src/colosseum/wrappers.py:Shorthand.to_dict", "src/colosseum/declaration.py:validated_shorthand_property"]}
{"id": "C121", "title": "A keyword is always kept as the one constant object", "statement": "Whatever string object spells a keyword, validation returns the module's own constant object, the same for every property and every hash order, so the comparisons by identity in the layout engine agree with comparisons of contents.", "quantifier": "all properties, all their keywords, all string objects, all iteration orders", "why_tests_cant": "string interning hides identity bugs in tests; all objects and orders", "anchors": ["src/colosseum/constants.py:Choices.validate", "src/colosseum/engine.py:layout"]}
{"id": "C122", "title": "After any history, a successful layout has the reference sizes and positions", "statement": "Take a document made from new nodes by any sequence of style changes (hiding and showing included), added, removed and reordered children, and layouts, successful or not. If laying it out succeeds, every node has exactly the margins, borders, paddings, sizes, positions within its parent and collapsed extents of the reference layout, which depends on the current styles and sizes only; nothing but the origins can remember the past.", "quantifier": "all documents, all histories of edits and layouts on any displays, both layout modes", "why_tests_cant": "all histories", "anchors": ["src/colosseum/engine.py:layout", "src/colosseum/engine.py:layout_box", "src/colosseum/dimensions.py:Box.reset"]}
{"id": "C123", "title": "Exactly which documents can be laid out", "statement": "After any history of edits and layouts, layout succeeds exactly if the root has a box and is displayed and every node reached by the layout meets a condition on its style alone: it is in flow and a block, an inline replaced or another inline element; all its lengths are finite, no angle, and percentages only of sizes that are known (the size of an inline non-replaced element is known only if it has an intrinsic one); a block of auto height has a last child with a box of known height or none; inherited offsets do not refer to the display; no auto margin is above an inline non-replaced element; no block follows a non-block.", "quantifier": "for all document trees made by any sequence of edits and layouts, all displays and both modes", "why_tests_cant": "An exact condition for success quantifies over all trees; a test shows that one tree fails or succeeds.", "anchors": ["src/colosseum/engine.py:layout", "src/colosseum/engine.py:layout_box", "src/colosseum/engine.py:calculate_width_and_margins", "src/colosseum/engine.py:calculate_height_and_margins"]}
{"id": "C124", "title": "Whether a document can be laid out does not depend on the display", "statement": "If a document can be laid out on some display, it can be laid out on every display (any size, resolution and border widths), in standards and in HTML5 mode.", "quantifier": "for all document trees made by any sequence of edits and layouts and all pairs of displays and modes", "why_tests_cant": "It says that no window size makes layout raise; tests try finitely many sizes.", "anchors": ["src/colosseum/engine.py:layout", "src/colosseum/engine.py:layout_box"]}
{"id": "C125", "title": "A document that was laid out can be laid out again", "statement": "After a successful layout, a second layout, on the same or any other display and in either mode, succeeds and gives the used values of the reference layout of the document for the new display, as if the first layout had not happened.", "quantifier": "for all document trees made by any sequence of edits and layouts and all pairs of displays and modes", "why_tests_cant": "The first layout changes the boxes of every node and removes those of hidden ones; that no such state makes a later layout fail or differ is a statement about all trees.", "anchors": ["src/colosseum/engine.py:layout", "src/colosseum/dimensions.py:reset"]}
{"id": "C126", "title": "What relative positioning moves", "statement": "Take two documents that differ only in that one block, a child of a static node, is position: relative in the second. If the block is not the last child (or its parent is inline or has a specified height), its offsets are not inherit and its children do not refer to its height, then after successful layouts every box of both documents is the same, also the descendants of the block, except that the block itself is moved: to the right by its left/right offset, and down by its top/bottom offset plus its upper border and padding.", "quantifier": "all documents with any history, all positions of the block in the document, all displays, both modes", "why_tests_cant": "relates pairs of layouts of unbounded trees", "anchors": ["src/colosseum/engine.py:layout_box", "src/colosseum/engine.py:calculate_height_and_margins"]}
{"id": "C127", "title": "Declarations without effect", "statement": "Layout ignores border styles; offsets of boxes that are not position: relative; min-width, max-width and direction unless a block-level box specifies its width; max-height unless a block-level box specifies its height; and min-height unless a block-level box leaves its height auto. Documents that differ only in such declarations have the same layout or the same error.", "quantifier": "all documents in any state, all pairs of styles, all displays, both modes", "why_tests_cant": "all pairs of documents and all values of the ignored declarations", "anchors": ["src/colosseum/engine.py:layout_box", "src/colosseum/engine.py:calculate_block_non_replaced_normal_flow_width", "src/colosseum/engine.py:calculate_block_non_replaced_normal_flow_height"]}
{"id": "C128", "title": "What percentages of edges and vertical margins refer to", "statement": "For every laid-out box whose containing block is the display or a box that is not relatively positioned: percentages of top and bottom paddings and borders are taken of the width of the containing block; percentages of left and right paddings and borders and of top and bottom margins are taken of the height of the display for the root, and are 0 for every other box. Results are on the grid of 1/64 px.", "quantifier": "all documents with any history, all laid-out boxes (blocks, words and images), all percentages, all displays, both modes", "why_tests_cant": "all percentages at all depths of unbounded trees", "anchors": ["src/colosseum/engine.py:layout_box", "src/colosseum/engine.py:calculate_size"]}
{"id": "C129", "title": "Signs of used edges and heights", "statement": "For every laid-out box, non-negative paddings, borders and vertical margins have non-negative used values if given in px, absolute or viewport units, and used values of at most zero if given in font-relative units. If no box is relatively positioned and heights, vertical margins, upper and lower borders and paddings are non-negative (heights and margins may be percentages; widths are arbitrary, but images have a specified height or a non-negative width), then the content height of every box is non-negative, except that of the root in HTML5 mode.", "quantifier": "all documents with any history, all laid-out boxes, all lengths, all displays with non-negative sizes", "why_tests_cant": "all documents and lengths; heights depend on unbounded numbers of descendants", "anchors": ["src/colosseum/engine.py:layout_box", "src/colosseum/engine.py:DummyFont", "src/colosseum/engine.py:calculate_block_non_replaced_normal_flow_height"]}
{"id": "C130", "title": "Exactly which displayed children are left out", "statement": "After a successful layout, a displayed child of a laid-out node is itself laid out, unless its parent is a block or list item with block-level children and the child is inline content after the last of them. Such a child is not laid out and its box, if it has one, is all zeros. (Inline content before or between block-level children makes layout fail, C123.)", "quantifier": "all documents with any history, all displays, both modes", "why_tests_cant": "all sibling lists at all depths", "anchors": ["src/colosseum/engine.py:layout_box", "src/colosseum/engine.py:anonymize"]}
{"id": "C131", "title": "Editing the end of a document moves nothing before it", "statement": "Take two documents that are the same up to some place in document order and differ arbitrarily after it (children added, removed, changed, at any depth). If every node that contains the place and has block-level children has one before or around the place, then the layouts agree on everything before the place: sizes, edges and positions. The nodes that contain the place have the same position, width, edges and collapsed top extent; only their heights and collapsed bottom extents may differ.", "quantifier": "all pairs of documents with any histories, all displays, both modes", "why_tests_cant": "all pairs of documents and all places of change", "anchors": ["src/colosseum/engine.py:layout", "src/colosseum/engine.py:layout_box", "src/colosseum/engine.py:anonymize"]}
{"id": "C132", "title": "A subtree looks the same in equally wide containers", "statement": "If the same subtree (same styles, intrinsic sizes and structure) is laid out in two documents, or in two places of one, on the same display, inside parents of the same content width that are not relatively positioned, then all its used values are the same, except the vertical position of its topmost box. (Its topmost node must not inherit offsets, and either its height is not a percentage or the parents specify the same height.)", "quantifier": "all pairs of documents with any histories, all displays, both modes in any combination", "why_tests_cant": "all subtrees in all pairs of surroundings", "anchors": ["src/colosseum/engine.py:layout_box", "src/colosseum/engine.py:calculate_width_and_margins", "src/colosseum/engine.py:calculate_height_and_margins"]}
{"id": "C133", "title": "The height of the display only sets the height of the root", "statement": "If no length in a document uses vh, vmin or vmax and the root does not refer to the height of the display by percentages, then laying it out on a display with another height (same width, resolution and border keywords) succeeds as well and gives the same used values everywhere, except that in HTML5 mode the height of the root is the height of the display less its collapsed extents.", "quantifier": "all documents with any history, all pairs of displays, both modes", "why_tests_cant": "all documents and all pairs of displays", "anchors": ["src/colosseum/engine.py:layout", "src/colosseum/engine.py:layout_box"]}
{"id": "C134", "title": "Nested auto-width blocks fill the display exactly", "statement": "A block that has width auto, as have all nodes around it (none of them relatively positioned), is exactly as wide as the display less the left and right margins, borders and paddings of itself and of all nodes around it. Its content starts at the sum of the left ones and ends at the display width less the sum of the right ones. If no such edge is negative, its border box lies within the display.", "quantifier": "all documents with any history (all nodes boxed for the absolute position), all displays, both modes, all depths", "why_tests_cant": "all depths of nesting and all edges", "anchors": ["src/colosseum/engine.py:calculate_block_non_replaced_normal_flow_width", "src/colosseum/engine.py:layout_box"]}
{"id": "C135", "title": "A failing layout raises the exception of the first obstacle in document order", "statement": "Whether layout() fails, and with which exception, is determined by the first obstacle met in a fixed order (per node: edges top/right/bottom/left, kind of layout, width, for relative nodes height, children in order, height, offsets): AttributeError for angles, unknown font units, offsets that cannot be inherited, a last child or root without a box and a block after an inline; TypeError where an unknown size is needed or a word has an auto top margin; NotImplementedError for unsupported float, position, inline-block and replaced blocks; Exception for other display values; OverflowError or ValueError for infinite or undefined amounts. No other exception is ever raised.", "quantifier": "all documents reached by any history of edits and layouts, all displays and standards", "why_tests_cant": "all trees and all combinations and positions of obstacles", "anchors": ["src/colosseum/engine.py:layout", "src/colosseum/engine.py:layout_box", "src/colosseum/engine.py:calculate_width_and_margins", "src/colosseum/engine.py:calculate_height_and_margins", "src/colosseum/units.py:px"]}
{"id": "C136", "title": "The exception does not depend on the display", "statement": "If laying out a document raises on one display and standard, then it raises the same exception on every other, except that infinite or undefined amounts may be reported as OverflowError on one display and as ValueError on another.", "quantifier": "all documents reached by any history, all pairs of displays and standards", "why_tests_cant": "all documents and displays", "anchors": ["src/colosseum/engine.py:layout"]}
{"id": "C137", "title": "Python's floats do not change the layout", "statement": "Doing the arithmetic of layout in Python's numbers, ints that are exact and floats that round to binary64, gives the same boxes and the same exception as doing it exactly, whenever the display, the intrinsic sizes and the boxes are measured in layout units, no value computed on the way exceeds 2^46 px in absolute value and no length converts differently; in particular all boxes stay in layout units.", "quantifier": "all documents, measured displays and standards for which the checked run does not stop", "why_tests_cant": "all documents and displays; every intermediate result of the engine", "anchors": ["src/colosseum/engine.py:layout", "src/colosseum/engine.py:layout_box", "src/colosseum/units.py:LU.px"]}
{"id": "C138", "title": "Ordinary documents never leave the range where floats are exact", "statement": "If the lengths of a document, the intrinsic sizes (without ratios), the display and its fixed border sizes are at most B px (B at least 300) and no length depends on the containing block, and 140 times the number of nodes times the square of the depth times B is at most 2^46, then no number computed during layout exceeds 2^46 px and layout in Python's floats equals exact layout, box for box and exception for exception.  Pixel lengths satisfy the condition on lengths.", "quantifier": "all documents and measured displays within the bound, both standards", "why_tests_cant": "all documents; a bound on every intermediate result", "anchors": ["src/colosseum/engine.py:layout", "src/colosseum/engine.py:layout_box", "src/colosseum/dimensions.py:Box"]}
{"id": "C139", "title": "Only the pixel values of lengths matter", "statement": "Take any document whose layout completes and replace every length of every element (percentages, em, vw, pt, ...) by the pixels it converts to: widths, horizontal margins and offsets, and top and bottom borders and paddings against the width of the parent's content box after layout, the others against the parent's content height as the engine sees it, and the height of a block against the height its parent declares.  Laying that document out gives exactly the same boxes.  (The root must not be relatively positioned when the HTML5 standard is used, and every displayed node must have a box.)", "quantifier": "all documents, displays and standards", "why_tests_cant": "all documents and unit combinations; the reference sizes come from the layout itself", "anchors": ["src/colosseum/engine.py:layout", "src/colosseum/engine.py:layout_box", "src/colosseum/engine.py:calculate_size", "src/colosseum/units.py:LU.px"]}
{"id": "C140", "title": "Layout in floats is exact layout of a document with rounded lengths", "statement": "Doing the conversions and the arithmetic of layout in Python's floats gives, when it completes and no value on the way exceeds 2^46 px, exactly the boxes exact arithmetic gives for the document in which every length is replaced by the pixels its conversion in floats yields against the boxes of the float layout; by C109 each such replacement is within 1/128 px plus a relative 2^-49 of the exact length.  So percentages and other units accumulate no rounding error beyond that of each single conversion.", "quantifier": "all documents, measured displays and standards for which the checked run does not stop", "why_tests_cant": "all documents; every intermediate float", "anchors": ["src/colosseum/engine.py:layout", "src/colosseum/engine.py:layout_box", "src/colosseum/units.py:LU.px"]}
{"id": "C141", "title": "A taller block pushes what follows by exactly as much", "statement": "Change the height of one block from one px value to another (no max-height; its content may change as well), below blocks. Then the block is higher by exactly the difference of the two heights and otherwise in the same place; on each level, the siblings before it stay where they are and the siblings after it move down by exactly the growth of the child before them, all else about them the same; and each enclosing block grows by the growth of its child if its height is auto and its last child is block-level, and not at all otherwise.", "quantifier": "all pairs of documents with any histories that differ in this way, any depth, all displays, both modes", "why_tests_cant": "all documents, depths and pairs of heights", "anchors": ["src/colosseum/engine.py:layout", "src/colosseum/engine.py:layout_box", "src/colosseum/engine.py:calculate_height_and_margins"]}
{"id": "C142", "title": "An edit moves what comes after it as a whole", "statement": "Replace some consecutive children of one node, at any depth, by any others. If the node still has, or still has not, block-level children, then on each level of the path from the root everything before the change is laid out as it was, and everything after the change is laid out as it was except for one vertical distance, the same for all siblings that follow. The nodes on the path keep width, edges and position in their parents.", "quantifier": "all pairs of documents with any histories that differ in this way, all displays, both modes", "why_tests_cant": "all pairs of documents and all edits", "anchors": ["src/colosseum/engine.py:layout", "src/colosseum/engine.py:layout_box", "src/colosseum/engine.py:calculate_height_and_margins"]}
{"id": "C143", "title": "What is inside a box with its own height moves nothing outside", "statement": "Replace all children of a node that has a height other than auto, or is inline, by any others. Then no other box changes its size, edges or place in its parent, and the node itself keeps its size, edges and place; only collapsed top extents on the path from the root can change (and with them the vertical position of the root).", "quantifier": "all pairs of documents with any histories that differ in this way, all displays, both modes", "why_tests_cant": "all documents and all contents", "anchors": ["src/colosseum/engine.py:layout", "src/colosseum/engine.py:layout_box", "src/colosseum/engine.py:calculate_height_and_margins"]}
{"id": "C144", "title": "Zooming a document", "statement": "If no length of a document is a percentage and one document is another with every length (as it comes to in px on its display), the display, the keyword border widths and the intrinsic sizes multiplied by k > 0, then every used value of its layout (margins, borders, paddings, width, height, position, collapsed extents) is k times as large. One of the two documents can be laid out exactly when the other can.", "quantifier": "all documents in any history, all k > 0, lengths that are multiples of 1/64 px before and after, whole vertical margins, no block centred by two automatic margins, images with an intrinsic size other than 0", "why_tests_cant": "all documents, all factors", "anchors": ["src/colosseum/engine.py:layout", "src/colosseum/engine.py:layout_box", "src/colosseum/engine.py:calculate_width_and_margins", "src/colosseum/engine.py:calculate_height_and_margins"]}
{"id": "C145", "title": "Mirroring a document", "statement": "Exchanging left and right in a document of blocks (margins, paddings, borders, offsets, direction) gives the mirror image of its layout: every vertical value is unchanged, left and right edges are exchanged, and each content box ends as far from the right edge of the content box around it as it began from the left one. One of the two documents can be laid out exactly when the other can.", "quantifier": "all documents of blocks in any history, none of them centred, relatively positioned boxes shifted from one side only", "why_tests_cant": "all documents, all combinations of direction and over-constrained widths", "anchors": ["src/colosseum/engine.py:layout", "src/colosseum/engine.py:calculate_block_non_replaced_normal_flow_width", "src/colosseum/engine.py:layout_box"]}
{"id": "C146", "title": "The order of keyword arguments does not matter", "statement": "Giving a declaration several properties of which no two set the same property (CSS(**style), update(**style)) has the same effect in every order: it succeeds in one order iff it succeeds in the other, and then every property, longhand or shorthand, reads the same (colours, border spacings and URLs up to the identity of the object), the same keys are listed, and the node ends equally dirty.", "quantifier": "all declarations, all lists of names and values, all their permutations", "why_tests_cant": "all values, n! orders, interactions between properties (border colours follow color, text_align follows direction, shorthands expand)", "anchors": ["src/colosseum/declaration.py:update", "src/colosseum/declaration.py:CSS.__init__", "src/colosseum/declaration.py:validated_property", "src/colosseum/declaration.py:directional_property"]}
{"id": "C147", "title": "Which number a text denotes", "statement": "A text is a number exactly when it is, between optional blanks, an optional sign followed by digits with an optional point and an optional exponent (single underscores allowed between digits), or by inf, infinity or nan in any mixture of cases. Its value is the binary64 number nearest to the decimal written (ties to even), infinite from half a unit above the largest binary64 number on. A length is such a text alone (pixels) or followed by one of the built-in unit suffixes. A text is a whole number exactly when it is an optional sign and digits, with single underscores between digits, between optional blanks, and its value is the number written.", "quantifier": "all texts (characters up to U+00FF)", "why_tests_cant": "infinitely many texts; rounding boundaries between all of them; signs, exponents and underscores interact", "anchors": ["src/colosseum/parser.py:units", "src/colosseum/parser.py:color", "src/colosseum/validators.py:is_integer", "src/colosseum/units.py:BaseUnit"]}
{"id": "C148", "title": "What repr() of a value is", "statement": "repr() of any value a property can hold or be given is its text as an expression (lengths as number and unit, rgba(...), BorderSpacing(...), rect(...), Quotes([...]), Cursor([...]), keywords in quotes); it raises exactly if the value contains an infinite length (OverflowError) or a NaN length (ValueError). repr() of what reading a border side or the outline gives is Class(name=part, ...) with the stored parts in the order of the class, for every declaration reached by any history whose lengths are finite and in built-in units. For any such object, also one made by hand with braces in a text, the text of the parts is passed through str.format() once more: fields become the text of the property of that name and doubled braces single ones; an unbalanced brace raises ValueError, an unknown field KeyError and an empty or numeric field IndexError.", "quantifier": "all values, nested to any depth; all reachable declarations; all ways Python may print floats (without braces); all format strings without a brace inside a field", "why_tests_cant": "nesting is unbounded and the text of a shorthand is passed through str.format() again, so whether braces can ever occur is a question about all reachable values", "anchors": ["src/colosseum/wrappers.py:Shorthand.__repr__", "src/colosseum/wrappers.py:ImmutableList.__repr__", "src/colosseum/wrappers.py:BorderSpacing.__repr__", "src/colosseum/wrappers.py:Quotes.__repr__", "src/colosseum/shapes.py:Rect.__repr__", "src/colosseum/units.py:BaseUnit.__repr__", "src/colosseum/colors.py:rgb"]}
{"id": "C149", "title": "Hashing agrees with equality", "statement": "Two values that compare equal have the same hash whenever both have one. A value has a hash exactly if it is not, and does not contain as member of tuples and cursors, a length, a rectangle, quotes or a plain list (these raise TypeError). Every cursor held by a declaration has a hash. An ImmutableList and a Cursor with the same members compare equal but are hashed differently.", "quantifier": "all values, nested to any depth; all hash functions for numbers, texts, tuples and identities", "why_tests_cant": "a law about all pairs of values and all hash seeds", "anchors": ["src/colosseum/wrappers.py:ImmutableList.__hash__", "src/colosseum/wrappers.py:Quotes.__eq__", "src/colosseum/shapes.py:Rect.__eq__", "src/colosseum/units.py:PixelUnit.__eq__"]}
{"id": "C150", "title": "A plain block put around blocks moves nothing", "statement": "Putting a plain block (normal position, automatic size, no margins, borders or padding) around consecutive block-level children of a block that is not relatively positioned leaves every other box of the page with the same margins, borders, padding, size, collapsed extents and absolute position; the page only gains one bare box. It is required that the first wrapped child is the first child of its parent or has no top margin, that the last one is not relatively positioned, that none of them inherits an offset, and that percentage heights among them occur only under a parent of automatic height. One of the two documents can be laid out exactly when the other can.", "quantifier": "for all documents, all displays, both standards, all places in the document, all groups of children", "why_tests_cant": "The claim relates two layouts of arbitrary documents and every box in them; tests compare single trees with fixed numbers.", "anchors": ["src/colosseum/engine.py:layout_box", "src/colosseum/engine.py:calculate_block_non_replaced_normal_flow_height", "src/colosseum/engine.py:calculate_block_non_replaced_normal_flow_width"]}
{"id": "C151", "title": "A length written as text is the size of that part of the box", "statement": "Assign the text of a number of at most 2^1000 in absolute value (any decimal spelling that float() reads: blanks, sign, underscores, point, exponent), followed by nothing or by px, in, pc, pt, cm, mm, vw, vh, vmax or vmin, to width, height, margin-top, margin-bottom, or any padding or border-width of a declaration, through the item syntax, whatever was done to the declaration before (provided the property did not hold a unit that the program made itself). After any successful layout, that part of every laid-out box with this declaration is the written number times the pixels per unit of the display, up to 1/128 px and the rounding of the written number to a binary64 number. For width and height the box must be block-level without the limits that apply (min-width, max-width; max-height), and in HTML5 mode the root's height is excluded.", "quantifier": "all texts of numbers, units, properties, declarations reached by any program, documents with any history of layouts and edits, displays and layout modes", "why_tests_cant": "Tests check the parser, the declaration and the engine apart, for a few lengths. That the number a user writes comes out as the size of the box involves all three, for every number, every unit and every prior state of the declaration, including assignments that are dropped because the value equals the stored one.", "anchors": ["src/colosseum/parser.py:units", "src/colosseum/declaration.py:validated_property", "src/colosseum/declaration.py:CSS.__setitem__", "src/colosseum/units.py:Unit.px", "src/colosseum/engine.py:calculate_block_non_replaced_normal_flow_width", "src/colosseum/engine.py:layout_box"]}
{"id": "C152", "title": "The percentage check accepts exactly non-negative percentages, and is never decisive", "statement": "The validator is_percentage accepts a text exactly when it is a number text (anything float() accepts) that is not below zero, followed by %, and returns that percentage; every other text is rejected with ValidationError. Nevertheless every property that lists it accepts every percentage text, negative ones included, because the validator for lengths runs first and accepts them.", "quantifier": "all texts, all properties with percentages, all declarations", "why_tests_cant": "The tests try a few percentages on the validator alone; that its rejection of negative percentages has no effect on any property is a statement about every property and every declaration.", "anchors": ["src/colosseum/validators.py:is_percentage", "src/colosseum/constants.py:Choices.validate", "src/colosseum/declaration.py:validated_property"]}
{"id": "C153", "title": "The two axes are laid out independently", "statement": "Take two documents of the same shape that agree in everything declared for the horizontal axis (display, position, direction, widths and their limits, left and right margins, borders, paddings and offsets, intrinsic widths; no percentages in horizontal borders and paddings, whose reference is a height; images with a width of their own). However their vertical declarations differ, every box has the same left position, width and horizontal margins, borders and paddings in both layouts. Likewise two documents that agree in everything declared for the vertical axis have the same tops, heights, vertical edges and collapsed extents, however their horizontal declarations differ.", "quantifier": "for all displays, all pairs of such documents after any history, whenever both layouts succeed", "why_tests_cant": "Pairs of arbitrary documents; a test compares single boxes and would not notice that a vertical declaration leaks into a horizontal position somewhere deep in a tree.", "anchors": ["src/colosseum/engine.py:layout_box", "src/colosseum/engine.py:calculate_width_and_margins", "src/colosseum/engine.py:calculate_height_and_margins"]}
{"id": "C154", "title": "What a wider display changes", "statement": "If the display becomes t px wider (or narrower), a document without lengths that refer to widths can still be laid out, and every vertical value stays. A block without a width becomes t px wider and stays where it is, and its children are affected in the same way; a block with a width keeps it and all its contents unchanged: with a margin on the side where text starts it stays at that side, a centred one that fits moves by t/2 up to 1 px, one held by its only margin at the far side moves by between 0 and t; inline boxes do not change at all.", "quantifier": "for all displays, all t, all documents of blocks and inline boxes without percentages, vw, vmin, vmax and inherited offsets, after any history", "why_tests_cant": "All documents and all pairs of display widths; tests use one display.", "anchors": ["src/colosseum/engine.py:layout", "src/colosseum/engine.py:calculate_block_non_replaced_normal_flow_width", "src/colosseum/engine.py:layout_box"]}
{"id": "C155", "title": "Larger vertical lengths never move anything up", "statement": "If in a document vertical margins, borders, paddings, heights, height limits, downward offsets or intrinsic heights are replaced by larger ones (no percentages; a changed vertical margin becomes a whole number of pixels, because fractional margins do not collapse), then no upper or lower edge of any border box or content box is higher on the page than before; with HTML5 the lower edges of the root, which fill the display, are excepted. With fractional margins this fails: a bottom margin of 1.5 px instead of 1 px moves the next block up.", "quantifier": "for all displays, all pairs of documents of the same shape related in this way, whatever their horizontal declarations, whenever both layouts succeed", "why_tests_cant": "Monotonicity of layout in every length of an arbitrary tree at once; tests compare fixed documents with fixed coordinates.", "anchors": ["src/colosseum/engine.py:calculate_height_and_margins", "src/colosseum/engine.py:layout_box", "src/colosseum/dimensions.py:Box"]}
{"id": "C156", "title": "Which texts quotes accepts, word by word", "statement": "A text given to quotes is cut at blanks. If the words are quoted strings (single or double quotation marks, no escapes inside), at least two, an even number and none empty, the result is their contents in pairs. It is ValueError if there are no words or an odd number of them, or if a word among quoted strings is an empty string or no literal: a bare identifier, an operator or guillemet such as < or «, an integer with leading zeros, or a quotation mark that is not closed before the next blank. Numbers, True, False and None among non-empty strings raise TypeError instead, from the text as well as from sequences of pairs with integers or None, and so does the assignment to the property, which then changes nothing.", "quantifier": "for all texts, with any blanks between the words; for all sequences of sequences", "why_tests_cant": "All texts: every word may be of any of these kinds at any place.", "anchors": ["src/colosseum/parser.py:quotes", "src/colosseum/validators.py:is_quote"]}
{"id": "C157", "title": "Blocks appear on the page in document order and never overlap", "statement": "In a document of blocks and list items in normal position, with upper and lower borders, paddings and heights that are not negative and with automatic height wherever a block has children: if one block comes before another in the document and neither contains the other, then the lower border edge of the first is not below the upper border edge of the second, in absolute coordinates. This holds between blocks of any depth and for all margins, negative ones included.", "quantifier": "for all such documents in which every node has a box, all displays without negative sizes, both standards, all pairs of blocks", "why_tests_cant": "The claim is about every pair of boxes in documents of any depth; a test compares a handful of coordinates of one tree.", "anchors": ["src/colosseum/engine.py:layout_box", "src/colosseum/engine.py:calculate_block_non_replaced_normal_flow_height", "src/colosseum/dimensions.py:absolute_border_box_bottom", "src/colosseum/dimensions.py:absolute_border_box_top"]}
{"id": "C158", "title": "What is inside a block in the document is inside its content box", "statement": "In the same documents every block lies, border included, between the upper and lower edge of the content box of each block that contains it (except the root in HTML5 mode, whose height is that of the display). If all blocks have automatic width, normal position and horizontal margins, borders and paddings that are not negative, every block also lies, border included, between the left and right edge of the content box of each block that contains it.", "quantifier": "for all such documents in which every node has a box, all displays without negative sizes, both standards, all pairs of nested blocks", "why_tests_cant": "The claim is about every pair of nested boxes in documents of any depth.", "anchors": ["src/colosseum/engine.py:layout_box", "src/colosseum/engine.py:calculate_block_non_replaced_normal_flow_height", "src/colosseum/engine.py:calculate_block_non_replaced_normal_flow_width", "src/colosseum/dimensions.py:absolute_content_bottom", "src/colosseum/dimensions.py:absolute_content_right"]}
{"id": "C159", "title": "Larger horizontal sides and smaller widths never make any box wider", "statement": "Take two documents of the same shape with the same kinds of boxes that both lay out. In the second, the horizontal margins, borders and paddings (none of them percentages) are nowhere smaller, and the widths, largest widths and smallest widths are nowhere larger (lengths that do not grow, or the same percentage, not negative; a largest width may be added, a smallest width dropped; intrinsic widths do not grow). Then no content box of the second page is wider than the same box of the first, at any depth: not the boxes inside a box that lost room, not those with percentage widths, not images. The heights (as long as the same ones are automatic, and images keep their intrinsic height and ratio), vertical margins, offsets and directions may differ freely, and the documents may have been laid out before.", "quantifier": "for all pairs of documents of any depth and breadth with any lengths so related, all displays, with and without HTML5, all earlier histories", "why_tests_cant": "A test narrows one length in one document; the claim is about every combination of narrower declarations in trees of any depth, through rounding, limits, automatic margins and percentages.", "anchors": ["src/colosseum/engine.py:calculate_width_and_margins", "src/colosseum/engine.py:layout_box", "src/colosseum/engine.py:calculate_block_non_replaced_normal_flow_width", "src/colosseum/engine.py:calculate_inline_replaced_width"]}
{"id": "C160", "title": "Exactly which functional colours are accepted, and what they denote", "statement": "A text made of rgb, rgba, hsl or hsla, one character, arguments separated by commas and one more character is a colour exactly when it has three arguments (four for rgba and hsla), red, green, blue and hue are whole numbers as int() reads them, saturation and lightness are whole numbers followed by any number of percent signs, and alpha is a number as float() reads it, blanks allowed around each. The colour has exactly these components; a percentage is the float nearest to its number, divided by 100 and rounded. A percentage too large for a float raises OverflowError, if everything before it is in order; every other text raises ValueError, also one that is too short to have both delimiters.", "quantifier": "all argument lists, all delimiters (except an 'a' after rgb or hsl), all texts that start with one of the four names", "why_tests_cant": "Tests try a few spellings; the claim decides every text and gives its value.", "anchors": ["src/colosseum/parser.py:color", "src/colosseum/colors.py:rgb", "src/colosseum/colors.py:hsl"]}
{"id": "C161", "title": "Exactly which assignments raise something other than ValueError, and what", "statement": "Assigning to any longhand other than quotes raises an exception that is not a ValueError in these cases and no others: an empty text given to a colour raises IndexError; a functional hsl or hsla colour whose percentage is too large for a float, with everything before it in order, raises OverflowError; an infinite float given to z-index, orphans or widows raises OverflowError; anything but a text given to clip raises AttributeError, also a Rect; a value that is neither text, number, tuple nor list given to border-spacing raises AttributeError, and given to cursor (numbers included) raises TypeError. The declaration is unchanged.", "quantifier": "all declarations, longhands other than quotes, values and exceptions", "why_tests_cant": "It is an equivalence over all values and properties: tests can show some exceptions but not that there are no others.", "anchors": ["src/colosseum/constants.py:Choices.validate", "src/colosseum/declaration.py:validated_property", "src/colosseum/parser.py:color", "src/colosseum/parser.py:rect", "src/colosseum/parser.py:border_spacing", "src/colosseum/parser.py:cursor", "src/colosseum/validators.py:_numeric_validator"]}
{"id": "C162", "title": "Every text is decided by the colour parser", "statement": "A text is a colour exactly when it is '#' followed by three or four hexadecimal digits or pairs (as C89 reads them), a functional colour with the right arguments (as C160 reads them), or a CSS colour name in any letter case; and it denotes exactly that colour. The empty text raises IndexError, a functional colour with an overflowing percentage OverflowError, every other text ValueError. Of the other values only colour objects are accepted, unchanged; the rest raises ValueError.", "quantifier": "all texts, all values", "why_tests_cant": "The set of texts is infinite and the claim is an equivalence: no list of examples shows that nothing else is accepted.", "anchors": ["src/colosseum/parser.py:color", "src/colosseum/parser.py:pound_sign_color", "src/colosseum/colors.py:rgb", "src/colosseum/colors.py:hsl"]}
{"id": "C163", "title": "The grammar of every property's values, written out", "statement": "For every longhand other than quotes, an assignment succeeds exactly for the values of a written grammar, and the property then reads as the value the grammar gives. Lengths: a unit object that is no angle, a number, or a text float() reads, alone or followed directly by a unit. Whole numbers: an int, a finite float cut towards zero, a text int() reads. Colours as in C162. Border spacings: one or two lengths, as words of a text or members of a list or tuple, or a lone number. Clip: rect( four lengths ) separated by commas or by blanks, runs of blanks counting as one. Cursor: any number of url(...) texts, then at most one keyword at the end, separated by commas or as members of a list or tuple; quotes around a URL are dropped. Besides these, the property's keywords (none is stored as None). Every other value leaves the declaration unchanged and raises a ValueError or one of the exceptions C161 lists.", "quantifier": "all reachable declarations, longhands other than quotes and values", "why_tests_cant": "Both directions quantify over all texts and all nested values; tests sample them.", "anchors": ["src/colosseum/parser.py:units", "src/colosseum/parser.py:border_spacing", "src/colosseum/parser.py:rect", "src/colosseum/parser.py:uri", "src/colosseum/parser.py:cursor", "src/colosseum/validators.py:is_integer", "src/colosseum/constants.py:Choices.validate", "src/colosseum/declaration.py:validated_property"]}
{"id": "C164", "title": "Exactly which values border and outline accept, and what they do", "statement": "The parts of a value given to border, border_top, ... or outline are the words of a text that is not empty, or the members of a sequence that is not empty. If the parts are values of different components (at most one width, one style, one colour; inherit in outline is a colour) and none is an angle, the assignment succeeds: every component with a part reads as that part's value, every component without a part reads as its initial value, and nothing else changes. A text of blanks alone therefore resets all components. An angle such as 10deg among the parts raises ValueError; in border the declaration is unchanged, in outline the colour and style have already been set or reset. Every other value leaves the declaration unchanged and raises ValueError, or the exception other than ValueError that a colour part raises, when such a part comes after at most two parts that are in order.", "quantifier": "all reachable declarations, shorthands and values", "why_tests_cant": "All texts and all nested values; the failing cases also depend on which part comes first and on the order of the components.", "anchors": ["src/colosseum/declaration.py:validated_shorthand_property", "src/colosseum/parser.py:outline", "src/colosseum/parser.py:border", "src/colosseum/constants.py:Choices.validate"]}
{"id": "C165", "title": "What a directional assignment does, also when it fails", "statement": "Assigning a value of one to four parts to margin, padding, border_width, border_color or border_style succeeds exactly if every side's part is in the grammar of that side (C163), and then every side reads as its part and nothing else changes. Otherwise the sides are assigned in the order top, right, bottom, left up to the first side that is rejected: the earlier sides read as their new parts, everything else is unchanged, and the exception is ValueError or the one the rejected side raises.", "quantifier": "all reachable declarations, directional properties and values", "why_tests_cant": "All values for four sides at once, with every position of the first failure.", "anchors": ["src/colosseum/declaration.py:directional_property", "src/colosseum/declaration.py:validated_property", "src/colosseum/constants.py:Choices.validate"]}
{"id": "C166", "title": "A declaration is a table: the last write to a property counts", "statement": "For every operation on a declaration (assignment, deletion, update, item assignment and deletion, binding to a node) the operation alone, not the declaration, decides which longhands it writes, which values it gives them, which it unsets, and which exception it raises. After any program, run on any declaration and going on after exceptions, every longhand therefore reads as the last value given to it in the program, as its initial value if the last write unset it, and as before if the program did not write it; each operation raises exactly the described exception. Assignments to quotes are not described (C156).", "quantifier": "all programs of operations, all reachable declarations, all longhands", "why_tests_cant": "Unbounded programs in which failing, partly failing and overlapping shorthand operations are mixed; independence of the state is a statement about all states.", "anchors": ["src/colosseum/declaration.py:validated_property", "src/colosseum/declaration.py:directional_property", "src/colosseum/declaration.py:validated_shorthand_property", "src/colosseum/declaration.py:CSS.update", "src/colosseum/declaration.py:CSS.__setitem__", "src/colosseum/declaration.py:CSS.__delitem__"]}
{"id": "C167", "title": "Layout depends only on the last writes to the properties the engine reads", "statement": "Take two documents of the same shape, with the same intrinsic sizes and boxes, whose declarations are made by two programs of operations (with unit objects of the library as the only unit objects in their values). If for every element and every property the engine reads the last writes of the two programs mean the same - both unset it, or the values are written for equal values, or one is written for the initial value and the other unsets it - then layout gives the same boxes and the same outcome, whatever else the programs did: earlier writes, deletions, failed operations, other properties, other hash orders.", "quantifier": "all documents, all programs that make the declarations, all displays, both document types, all hash orders", "why_tests_cant": "Quantifies over pairs of unbounded programs for every element of unbounded documents; a setter that keeps a stale value only shows for some histories.", "anchors": ["src/colosseum/declaration.py:validated_property", "src/colosseum/declaration.py:directional_property", "src/colosseum/declaration.py:validated_shorthand_property", "src/colosseum/declaration.py:CSS.update", "src/colosseum/engine.py:layout"]}
{"id": "C168", "title": "Angles in degrees", "statement": "The degrees of an angle (deg, grad, rad or turn) are within 5 roundings of a double of the exact ones, for any value of size 2^-900 to 2^900 or zero; exactly so for whole numbers of deg and turn, which give ints; no float result is a whole number (those are returned as ints); for values of one type a larger angle never has fewer degrees, and the degrees of the opposite angle are the opposite. NaN gives ValueError and nothing else does; OverflowError comes only from an infinity or from a value beyond 2^1000; a unit that is not an angle has no degrees (AttributeError).", "quantifier": "all units, all int and float values (any rational double, infinities, NaN)", "why_tests_cant": "Rounding errors and monotonicity are statements about every pair of doubles; samples cannot bound the error of two successive roundings or exclude an inversion.", "anchors": ["src/colosseum/units.py:AngleUnit.deg", "src/colosseum/units.py:BaseUnit.__neg__"]}
{"id": "C169", "title": "A property without validation keeps the last value and marks the node", "statement": "After any sequence of assignments and deletions a property made by unvalidated_property reads as the value of the last one (an assigned value equal to the one already there may leave the old object), or the initial value after a deletion. In a declaration with a layout every value is accepted; a clean layout is marked by an assignment exactly if the value differs from the one read before, and by a deletion exactly if a value was stored; no other property changes.", "quantifier": "all sequences of operations, all values, all initial values", "why_tests_cant": "Quantifies over unbounded histories of one property; a mark that is lost or set without need appears only for some histories.", "anchors": ["src/colosseum/declaration.py:unvalidated_property"]}
{"id": "C170", "title": "The text of a box determines its size and place", "statement": "Two boxes with the same repr have the same content width, content height, absolute content left and absolute content top, whatever text Python gives floats, provided it is injective, is never the text of an int and is made of digits, point, signs and e. The text has the form <Box (WxH @ X,Y)>, and however it is cut in that form W and H are the content width and height, X the absolute content left and Y the absolute content top.", "quantifier": "all pairs of boxes, all such float texts", "why_tests_cant": "Injectivity is about all pairs of boxes; a separator that can occur inside a number would only collide for some.", "anchors": ["src/colosseum/dimensions.py:Box.__repr__"]}
{"id": "C171", "title": "is_uri accepts exactly the url texts and fails only with ValidationError", "statement": "is_uri returns what the parser of urls returns, accepts a text exactly when it is url( ... ) between blanks, refuses every value that is not a text, and raises nothing but ValidationError.", "quantifier": "all values", "why_tests_cant": "Quantifies over all texts and all other values.", "anchors": ["src/colosseum/validators.py:is_uri"]}
{"id": "C172", "title": "Inline-level and block-level elements", "statement": "No element is both block-level and inline-level; inline and inline-block elements are inline-level; and the inline-level elements that are block containers are exactly the inline-block elements that are not replaced; the inline-level displays are exactly inline, inline-table and inline-block, the block-level ones exactly block, list-item and table.", "quantifier": "all styles and intrinsic sizes", "why_tests_cant": "The classes are decided by chains of identity tests over 19 display values with replaced or not; the tests fix a few displays only.", "anchors": ["src/colosseum/engine.py:is_inline_level_element", "src/colosseum/engine.py:is_block_level_element", "src/colosseum/engine.py:is_block_container", "src/colosseum/engine.py:is_inline_element", "src/colosseum/engine.py:is_inline_block_element"]}
{"id": "C173", "title": "Colour conversion with Python's floating-point arithmetic is a correct rounding", "statement": "With every operation rounded as Python does: for a hue in [0,360] and saturation and lightness in [0,1] (ints or doubles), hsl(...).rgb gives bytes that are nearest integers of 255 times the CSS fractions up to 2^-38 (red and green exchanged strictly between 240 and 300 degrees, see C90); for whole degrees and whole percentages, as parsed from hsl(h, s%, l%), they are nearest integers exactly. For every hue a float can be made of the components are in 0..255 and alpha is kept; an infinite or NaN hue raises ValueError, an int beyond the floats OverflowError. The conversion always gives an rgb colour, keeps alpha, and gives an rgb colour itself.", "quantifier": "all hues, saturations and lightnesses that are ints or doubles in range; all texts hsl(h, s%, l%) with whole h in 0..360 and s, l in 0..100", "why_tests_cant": "3.7 million whole colours and 2^64 doubles for each component; a rounding error moves the result only near ties.", "anchors": ["src/colosseum/colors.py:hsl.rgb", "src/colosseum/parser.py:color"]}
{"id": "C174", "title": "Blocks without vertical margins can be put in any order", "statement": "If consecutive block-level children of a block, not relatively positioned and without vertical margins in their subtrees, are put in another order, then each of them looks the same, they touch each other without gaps from the same place to the same place, and everything else in the document is the same. A block of automatic height with only such children (at least one) is exactly as high as the sum of their border-box heights, and they fill it from its top (the root before HTML5 mode fits it to the display). One of the two documents can be laid out exactly when the other can.", "quantifier": "all documents, any depth, any group of siblings and any permutation; displays, HTML5 mode or not; new documents (absolute positions) and any history", "why_tests_cant": "Permutations of arbitrarily many subtrees of arbitrary content; the position of each follows from all before it.", "anchors": ["src/colosseum/engine.py:layout_box", "src/colosseum/engine.py:calculate_block_non_replaced_normal_flow_height"]}
{"id": "C175", "title": "An empty block undoes the collapsing of the margins around it", "statement": "An empty plain block put between two adjacent blocks (the first not relatively positioned, all above blocks) is placed below the first one at the distance of its whole bottom extent, and everything after it moves down by exactly the overlap of the two margins: the smaller of the bottom extent of the first and the top margin of the second, 0 if that is negative. What comes before stays, and the blocks above grow by this if their heights follow from their last children, pushing what comes after them. In CSS margins collapse through an empty block and nothing would move. The document can be laid out with the empty block exactly when it can without.", "quantifier": "all documents, any place between two adjacent blocks, any margins; displays, HTML5 mode or not; new documents (absolute positions) and any history", "why_tests_cant": "Any depth and any margins; the move reaches all later boxes of the document.", "anchors": ["src/colosseum/engine.py:layout_box", "src/colosseum/engine.py:calculate_block_non_replaced_normal_flow_height"]}
{"id": "C176", "title": "Text after the last block makes the block around it flat", "statement": "A block or list item of automatic height that has block-level children but whose last child is not block-level (inline, hidden) gets the height 0, whatever blocks it contains, so that the next block is drawn over them. What these trailing children are makes no difference to the layout of anything else (their number neither, as long as there are some; if the height is set, not even that), nor to whether the document can be laid out. In CSS the block would be as high as its contents.", "quantifier": "all documents, any depth, any trailing children with any subtrees; displays, HTML5 mode or not; new documents (absolute positions) and any history", "why_tests_cant": "Any depth and any contents; the claim is about everything else in the document.", "anchors": ["src/colosseum/engine.py:layout_box", "src/colosseum/engine.py:calculate_block_non_replaced_normal_flow_height"]}
{"id": "C177", "title": "The page is the reference layout of the values last written", "statement": "Take a document whose declarations are made by programs of operations (attribute and item assignments, shorthands, update, deletion, failing operations included; values may contain unit objects of the library). Give every element the style that has, in every property the engine reads, the value its last write means, or the initial value if the last write unset it or there was none; every program has such a style. Any successful layout, first or repeated, shows exactly the reference layout of these styles, in which programs, stores and previous boxes do not occur. In particular a length written as text (a number of at most 2^1000 in any decimal spelling, a unit) by the last write to a width, height, vertical margin, padding or border width, alone, as one of several sides or as a part of a shorthand, is the size of that part of the box, up to 1/128 px and the rounding of the written number (with the provisos of C151).", "quantifier": "all documents, all programs, displays, HTML5 mode or not, hash orders; new documents (absolute positions) and any history", "why_tests_cant": "Connects unbounded programs of writes with the boxes of unbounded documents; the tests look at declarations and layout apart.", "anchors": ["src/colosseum/declaration.py:validated_property", "src/colosseum/declaration.py:directional_property", "src/colosseum/declaration.py:validated_shorthand_property", "src/colosseum/declaration.py:CSS.update", "src/colosseum/engine.py:layout", "src/colosseum/engine.py:layout_box", "src/colosseum/units.py:Unit.px"]}
{"id": "C178", "title": "What a percentage written as text comes to", "statement": "If the last write of a program to a width, height, vertical margin, padding or border width is a text made of a number of at most 2^1000 in any decimal spelling and %, by whatever operation, then after any successful layout that part of every laid-out box with this declaration is that share, up to 1/128 px and the rounding of the written number, of: the content width of the containing block for widths and upper and lower paddings and borders; the height declared for the parent for heights (0 if automatic or itself a percentage; for the root the height of the display); for the other properties the height of the display for the root and 0 below it. (The parent must not be relatively positioned where a height is referred to; the provisos of C151 for width and height.) So percentage heights do not nest: inside a block whose height is a percentage, a percentage height is 0.", "quantifier": "all texts of percentages, properties, programs, documents with any history, displays and layout modes", "why_tests_cant": "Connects every spelling of a number, every program of writes and every document; tests look at parser, declaration and engine apart.", "anchors": ["src/colosseum/parser.py:units", "src/colosseum/declaration.py:validated_property", "src/colosseum/units.py:Unit.px", "src/colosseum/engine.py:layout_box", "src/colosseum/engine.py:calculate_block_non_replaced_normal_flow_height"]}
{"id": "C179", "title": "HTML5 mode only changes the height of the root", "statement": "Laying a document out in HTML5 mode and in the other mode ends the same way, with the same exception or none. After an exception the two documents are identical. After success they agree in every element and every attribute of every box except the content height of the root, which in HTML5 mode is the height of the display less the root's upper and lower collapse extents. In particular no position and no size of any element below the root depends on the mode.", "quantifier": "all documents in any state, all displays", "why_tests_cant": "Compares two runs on every document; the tests run chosen documents in each mode separately.", "anchors": ["src/colosseum/engine.py:layout"]}
{"id": "C180", "title": "Operations on different properties can be reordered", "statement": "Take a program of operations on a declaration, none of which assigns to quotes, and exchange neighbouring operations any number of times, each time two that have no longhand in common (a property that stands for several counts as all of them, update() as all its items; binding to a node has none). Then every operation raises the same exception as before, or none; every property reads as before up to equality of the values written; and a document whose declarations are made by such reordered programs is laid out the same, with the same outcome. (The declarations are bound only to nodes with a layout; for layout the unit objects in the values are the library's.) The condition is needed: setting margin and deleting margin_top do not commute.", "quantifier": "all programs, all reorderings by exchanges of independent operations, all reachable declarations, all documents, displays and both modes", "why_tests_cant": "All pairs of operations, in all programs, with all values; tests write one property at a time.", "anchors": ["src/colosseum/declaration.py:CSS.update", "src/colosseum/declaration.py:validated_property", "src/colosseum/declaration.py:directional_property", "src/colosseum/declaration.py:CSS.__setitem__", "src/colosseum/engine.py:layout"]}
{"id": "C181", "title": "Laying out a node that has a parent", "statement": "layout() may be called on a node that has a parent. If the node is not relatively positioned, its height is finite and its parent's height can be converted to pixels, then layout() has the same outcome as if the node had no parent, and changes the same things to the same values, except the content height of the node itself; in HTML5 mode that is the same too. Outside HTML5 mode, the content height of a block that declares one is the declared height, a percentage of it being of the height declared for the parent if there is one and it is not auto and else of the height of the display, but not more than max-height, whose percentages are of the height of the display.", "quantifier": "all documents in all states, all styles of the parent, all displays and both modes", "why_tests_cant": "The tests lay out documents from their root, and they compare single pages; this compares two layouts of every document.", "anchors": ["src/colosseum/engine.py:layout", "src/colosseum/engine.py:calculate_block_non_replaced_normal_flow_height", "src/colosseum/engine.py:layout_box"]}
{"id": "C182", "title": "The boxes Python computes for a pixel document are those of what was written", "statement": "Take a new document whose declarations are made by programs (any operations, any spelling of the values), such that every length the engine reads is a number of px of at most B-1, no offset is inherit, the intrinsic sizes are at most B px in layout units and without ratio, the display is at most B px in layout units (B at least 300), and 140 times the number of nodes times the square of the depth times B is at most 2^46. Then layout with every float operation rounded to binary64, as Python does it, has the same outcome as with exact numbers; and if it completes, the absolute positions, sizes and edges of all boxes are exactly those of the reference layout (a recursive definition of the page that knows no engine state) of the values written last.", "quantifier": "all programs, all hash orders, all such documents and displays, both modes", "why_tests_cant": "All documents, and the whole way from the written values to the boxes including every rounding.", "anchors": ["src/colosseum/declaration.py:validated_property", "src/colosseum/units.py:LU.px", "src/colosseum/engine.py:layout", "src/colosseum/engine.py:layout_box", "src/colosseum/dimensions.py:Box"]}
{"id": "C183", "title": "What anonymize() does with a list of children", "statement": "anonymize(nodes) returns the block-level nodes in their order, each run of other nodes before one of them collected, in order, in an anonymous block box put before it; the nodes after the last block-level node are in no container. So concatenating the members of the containers gives the nodes without that last run, and no other list of containers has these properties. The loop of layout_box() over the result does the same as the single loop over the children that the theorems about layout use.", "quantifier": "all lists of nodes", "why_tests_cant": "All interleavings of inline and block children; the tests have none of mixed children.", "anchors": ["src/colosseum/engine.py:anonymize", "src/colosseum/engine.py:AnonymousBlockBox", "src/colosseum/engine.py:layout_box"]}
{"id": "C184", "title": "A session of edits and layouts in Python's floats shows the last values written", "statement": "Start with a new document and alternate edits (any declarations and intrinsic sizes anywhere, children removed, added, reordered) with layouts in which every float operation is rounded to binary64, each time on a document of the kind of C182 (px lengths and sizes within the bound) in which no box is left below a node without one. Then at every point the next such layout has the same outcome as exact arithmetic would have from that state; and if it completes, the page (sizes, edges, positions in the parent) is exactly the reference layout of the values written last, whatever was laid out before.", "quantifier": "all sessions of any length, all programs and hash orders, all documents and displays within the bound, both modes", "why_tests_cant": "All sequences of edits and layouts; rounding errors that would accumulate from layout to layout.", "anchors": ["src/colosseum/engine.py:layout", "src/colosseum/engine.py:layout_box", "src/colosseum/declaration.py:validated_property", "src/colosseum/dimensions.py:Box"]}
{"id": "C185", "title": "The work of a layout is at most proportional to the number of nodes times the depth", "statement": "Count the work of layout(display, node, standard): a price per call of layout_box() and a price per execution of one of the setters that go on through the children (content_top, content_left, _origin_top, _origin_left), including those of reset(). For every document, boxes left over from anything, and whether or not an exception is raised, the total is at most the price of a call times the number of nodes plus 11 times the price of a setter times the number of nodes times the depth of the document. layout_box() is called at most once per node, and exactly once per node when all elements are block-level and the layout succeeds. Counting changes nothing: the counted program returns what layout() returns.", "quantifier": "all documents, styles, displays, stale boxes, both modes, all prices", "why_tests_cant": "A bound on the work for documents of every size and shape; tests run small documents and cannot exclude exponential or cubic behaviour of setters that call setters.", "anchors": ["src/colosseum/engine.py:layout", "src/colosseum/engine.py:layout_box", "src/colosseum/dimensions.py:Box"]}
{"id": "C186", "title": "Documents in any units but percentages, laid out in Python's floats", "statement": "Take a new document in which no length is a percentage (px, pt, in, cm, mm, pc, em, ex, ch, vw, vh, vmin, vmax in any mixture), each length converts in floats to at most B px, no offset is inherit, intrinsic sizes and display are at most B px in layout units and without ratio (B at least 300), and 140 times the number of nodes times the square of the depth times B is at most 2^46. If layout with every float operation rounded to binary64 completes (with the standard other than HTML5, or a root that is not relative), then the absolute positions, sizes and edges of all boxes are exactly those of the reference layout of the document in which each length is replaced by the pixels its conversion in floats yields; and each of those is within 1/128 px plus a relative 2^-49 of the length as written. Rounding errors do not accumulate.", "quantifier": "all new documents of any shape within the bound, all units but %, all displays in layout units", "why_tests_cant": "All mixtures of units in documents of any size; accumulated rounding errors.", "anchors": ["src/colosseum/engine.py:layout", "src/colosseum/engine.py:layout_box", "src/colosseum/units.py:BaseUnit", "src/colosseum/dimensions.py:Box"]}
{"id": "C187", "title": "Escapes in the words of quotes are Python's, not those of CSS", "statement": "A word of a text given to quotes that is a string in single or double quotation marks may contain escapes, and stands for the text that Python's escapes denote: \\\\ \\' \\\" \\a \\b \\t \\n \\v \\f \\r, octal escapes of one to three digits up to \\377, \\x with two and \\u00 with two more hexadecimal digits; a backslash before any other character (U and N aside) stands for itself. With such words, an even number of at least two and none empty, quotes gives their texts in pairs; every word stands for one text only. A word in which \\x or \\u has too few hexadecimal digits is a ValueError, and so is one that denotes the empty text. In particular the escape of four digits by which CSS writes a curly quotation mark, such as \\201C, is taken as an octal escape of three digits and the character C.", "quantifier": "for all texts of words with escapes at any places, with any blanks between the words", "why_tests_cant": "All words: escapes of all kinds, in any order, next to digits or not.", "anchors": ["src/colosseum/parser.py:quotes", "src/colosseum/validators.py:is_quote"]}
{"id": "C188", "title": "Deep documents really are more work: the bound with the depth in it cannot be improved", "statement": "Layout goes through everything inside an element when it finds that the element's content starts further down than before: at every block-level element whose top border and padding take up space, the setters visit all the boxes in it, so a layout that raises nothing takes at least as many turns of their loops as these subtrees have boxes, one after the other. A document of blocks in which all top borders and paddings take up space is always laid out, and takes at least one turn for every pair of a node and an element around it (or itself). So for every number m there is a new document of m blocks whose layout on every display takes at least m(m+1)/2 turns: the work is not linear in the size of the document.", "quantifier": "for all documents, displays and both values of the HTML5 flag; for all numbers m", "why_tests_cant": "A lower bound for all documents of every size and shape; timing a test shows one document.", "anchors": ["src/colosseum/engine.py:layout", "src/colosseum/engine.py:layout_box"]}
{"id": "C189", "title": "Strings written side by side in quotes are one string", "statement": "In a text given to quotes, strings that stand next to each other without a blank count as one string, whose text is theirs one after the other; the sign # after a string and whatever comes behind it in the same word is ignored; a string followed directly by any other character (a comma and the letters that may be a prefix of a Python string aside) is a ValueError, and so is a word whose text is empty. With an even number of such words, none empty, quotes gives their texts in pairs, and every word stands for one text only. In particular two pairs written without a blank inside them, as CSS allows, are taken as one pair of joined texts, and one such pair alone is rejected.", "quantifier": "for all texts of words made of any number of strings with any escapes, with any blanks between the words", "why_tests_cant": "All words: any number of strings in either kind of quotation marks, with all escapes, and anything after them.", "anchors": ["src/colosseum/parser.py:quotes", "src/colosseum/validators.py:is_quote"]}
{"id": "C190", "title": "Borders exchanged for paddings move nothing", "statement": "Take two documents that are the same except for the widths of borders and the paddings, such that on every side of every element the border and the padding together take up the same space in both. Then both are laid out alike: every element has the same position, width, height, margins and collapsed margins, and on every side the same sum of border and padding. If no border or padding is a percentage and the floats are the same, one can be laid out exactly if the other can. A designer may draw space as a border or leave it as padding without moving anything.", "quantifier": "for all documents and histories, displays and HTML5 flags, with any units, when both layouts succeed", "why_tests_cant": "A relation between any two documents of any depth, for all declarations.", "anchors": ["src/colosseum/engine.py:calculate_width_and_margins", "src/colosseum/engine.py:layout_box", "src/colosseum/box_model.py:Box"]}
{"id": "C191", "title": "In Python's floats, a document without percentages behaves like its lengths in px", "statement": "Take a document without percentages all of whose lengths units.py can convert in Python's floats. Laying it out in floats does exactly what laying out, in exact arithmetic, the same document with every length replaced by its conversion to px does: the same boxes everywhere, and if one raises, the other raises the same exception at the same point, leaving the same boxes behind. And the layout in floats succeeds exactly if the layout, in exact arithmetic, of the document as written does.", "quantifier": "for all documents without percentages or inherited offsets, of lengths that convert to at most B px, with sizes of at most B px, where the number of nodes times the square of the depth times B is small against 2^46; all displays and HTML5 flags", "why_tests_cant": "It compares floats with exact numbers on documents of any shape, including every failure.", "anchors": ["src/colosseum/engine.py:layout_box", "src/colosseum/engine.py:calculate_width_and_margins", "src/colosseum/units.py:BaseUnit"]}
{"id": "C192", "title": "Used sizes written down move nothing", "statement": "Lay a document out, then declare on any of its blocks, instead of an auto width, the width in px its box has, and instead of an auto height the height in px its box has. The changed document is laid out too, and every box has the size and the place it had.", "quantifier": "for all documents, and all sets of blocks whose sizes are written down: widths where no minimum or maximum is declared, heights where no maximum is declared, no child refers to the height and the last child's bottom margin does not reach below the block's own; sizes in whole 64ths of a px; with HTML5 not the height of the root, which the display extends; all displays; for success also: heights declared on text are finite lengths and no percentages", "why_tests_cant": "It compares two layouts for every document, every display and every choice of the blocks, and the widths and heights come from the first layout.", "anchors": ["src/colosseum/engine.py:calculate_block_non_replaced_normal_flow_width", "src/colosseum/engine.py:calculate_block_non_replaced_normal_flow_height", "src/colosseum/engine.py:layout_box"]}
{"id": "C193", "title": "Documents of whole pixels have int boxes", "statement": "If the display is measured in ints, the intrinsic sizes and ratios are ints and every declared length is a whole number of px, then after layout every number in every box, and every coordinate that can be read from a box, is an int and not a float, whether layout completes or raises. That holds for px, for multiples of 100% and for 0 of any unit. If every node had a box, it holds no matter what the boxes held before.", "quantifier": "for all documents of whole lengths, all displays measured in ints, both HTML5 flags, all boxes from earlier layouts", "why_tests_cant": "A float slips in on one path of the arithmetic only; tests compare with ==, which does not tell 10 from 10.0.", "anchors": ["src/colosseum/engine.py:layout", "src/colosseum/engine.py:calculate_block_non_replaced_normal_flow_width", "src/colosseum/engine.py:calculate_inline_replaced_height", "src/colosseum/units.py:BaseUnit"]}
{"id": "C194", "title": "Used margins, borders and paddings written down as declared ones move nothing", "statement": "Suppose a document was laid out and, at any number of its blocks, any of the four margins, paddings or border widths is replaced by the number the box was given for it, in px (a multiple of 1/64). Only blocks with a declared width between two auto margins keep those two margins. If the layout of the new document succeeds, all boxes have the numbers they had before; if every node of both documents has a box, it succeeds.", "quantifier": "for all documents with any history, all displays, both HTML5 flags, all sets of blocks and edges written down", "why_tests_cant": "The claim relates two layouts of arbitrary trees; percentages, auto, keywords and over-constrained margins all take different branches from a length in px.", "anchors": ["src/colosseum/engine.py:calculate_block_non_replaced_normal_flow_width", "src/colosseum/engine.py:layout_box", "src/colosseum/engine.py:calculate_size", "src/colosseum/units.py:px"]}
{"id": "C195", "title": "The same page on a display with more dots per inch", "statement": "Take two displays of the same size in inches, the second with k times as many dots per inch. A document whose lengths are in pt, pc, in, cm, mm, em, ex, ch, vw, vh, vmin or vmax (or 0) can be laid out on both or on neither, and every used value on the second display (margins, borders, paddings, width, height, position, collapsed extents) is k times what it is on the first: the page looks the same.", "quantifier": "for all k > 0, all pairs of such displays, all documents in any history whose lengths come to multiples of 1/64 px and whose vertical margins come to whole px on both displays, without blocks centred by two automatic margins; intrinsic sizes are k times as many dots, other than 0 for images", "why_tests_cant": "All documents, units and factors; a unit that ignores the resolution on one path shows only as a slightly wrong page on some displays.", "anchors": ["src/colosseum/engine.py:layout", "src/colosseum/units.py:FontUnit.lu", "src/colosseum/units.py:AbsoluteUnit.lu", "src/colosseum/units.py:ViewportUnit.lu"]}
{"id": "C196", "title": "Every arrangement of rectangles from top to bottom can be written as a document", "statement": "Take any tree of rectangles, each with a position inside the one around it, a width and a height (multiples of 1/64 px), such that among the rectangles directly inside one another each begins where the one before ends or further down (they may lie and stick out anywhere horizontally, and stick out at the bottom). The document in which every rectangle is a block with that width and height in px, the distance from the left as left margin and the gap above as top padding can be laid out on every display, and its content boxes are exactly these rectangles.", "quantifier": "for all such trees of rectangles, all displays, both HTML5 flags", "why_tests_cant": "The claim is that a document exists for every wanted page; tests start from documents.", "anchors": ["src/colosseum/engine.py:layout", "src/colosseum/engine.py:layout_box", "src/colosseum/engine.py:calculate_block_non_replaced_normal_flow_width", "src/colosseum/engine.py:calculate_block_non_replaced_normal_flow_height"]}
{"id": "C197", "title": "Percentages of percentages: rounding errors do not grow", "statement": "Take a block that is laid out, such that its width and the widths of all blocks around it are auto or percentages between 0% and 100%, without min-width or max-width on the percentages. Its used width is within m/128 px of the width computed without any rounding from the width of the display, where m is how many of these widths are percentages: every percentage adds at most half of the 1/64 px grid, however deep the document is, and auto widths add nothing.", "quantifier": "for all documents with any history, all displays, both HTML5 flags, all chains of nested blocks", "why_tests_cant": "The bound concerns all depths of nesting and all percentages; the error of each level is passed on to the next, and a test sees one chain.", "anchors": ["src/colosseum/engine.py:calculate_block_non_replaced_normal_flow_width", "src/colosseum/engine.py:layout_box", "src/colosseum/units.py:Percent.lu"]}
{"id": "C198", "title": "Edits of a declaration can be undone", "statement": "Take any declaration and any program of edits (assignments, deletions, update(), failing ones included). For every longhand the program changed, assign the value it had before, or delete it if it had no value of its own. If none of the values to be assigned is an angle, a BorderSpacing, Rect or Quotes object or a cursor list with a url, no assignment raises, and afterwards every longhand reads as before the edits, up to equality of values; a document whose declarations were edited and undone like this is laid out the same, with the same outcome. The declaration is not bound to a node without a layout when the edits are undone; for layout the unit objects are the library's. keys() need not be the same: a property that had been given its initial value explicitly is not listed any more.", "quantifier": "for all reachable declarations, all programs of edits, all lists of longhands that contain the changed ones, all hash orders; for all documents, displays and both HTML5 flags", "why_tests_cant": "Undo has to work from every state for every sequence of edits; equality checks inside the setter decide whether an assignment is carried out, and the cases where it is not are easily missed.", "anchors": ["src/colosseum/declaration.py:validated_property", "src/colosseum/declaration.py:CSS.update", "src/colosseum/declaration.py:directional_property", "src/colosseum/engine.py:layout"]}
{"id": "C199", "title": "Horizontal margins of blocks with a declared width only move them sideways", "statement": "Take two documents that are the same except for the direction of elements and for margin-left and margin-right of elements that are not inline and have a declared width. Centring such blocks, pushing them aside or changing which margin absorbs the rest changes no size, border, padding, vertical margin, collapsed extent or vertical position of any box; every box is moved in its container by exactly the difference of its used left margins. Whether layout succeeds is the same too, if these margins are auto or lengths and not percentages. The offsets left and right are not inherit: an inherited offset reads the horizontal position of the container.", "quantifier": "for all documents with any layout history, any number of such elements anywhere, all displays and both HTML5 flags", "why_tests_cant": "Margins enter the computation of the width and of the position of the content, from where they could reach the width of children, percentages and heights below; no finite set of documents excludes this.", "anchors": ["src/colosseum/engine.py:calculate_block_non_replaced_normal_flow_width", "src/colosseum/engine.py:layout_box"]}
{"id": "C200", "title": "Limits that are not reached have no effect", "statement": "Take a document that is laid out, and change min-width, max-width and max-height of any of its elements: limits may be left out, added or exchanged for others, as long as the used width or height was strictly within the old limits and respects the new ones (it may equal them). Nothing on the page changes: every box keeps its place, size, margins, borders and paddings. The limits compared with are not percentages. In HTML5 mode max-height of the root is not changed, because the height of the root is not its own. Whether layout succeeds is the same for any limits that are finite lengths and not percentages.", "quantifier": "for all documents with any layout history, any number of changed limits anywhere, all displays and both HTML5 flags", "why_tests_cant": "That a limit does nothing unless it is reached has to hold at every element, for every size and for what is laid out inside and after the element.", "anchors": ["src/colosseum/engine.py:calculate_block_non_replaced_normal_flow_width", "src/colosseum/engine.py:calculate_block_non_replaced_normal_flow_height", "src/colosseum/engine.py:layout_box"]}
{"id": "C201", "title": "Equal items are evenly spaced", "statement": "Let a block or list item have, among its children, any number of consecutive blocks with the same declarations, contents and intrinsic sizes. In every layout these blocks and everything in them are laid out the same, each at the same distance below the one before: the height of one of them from border edge to border edge, plus the larger one of its top margin and the extent that collapses at its bottom. If the block around them has automatic height and no other children, its content ends at the lower border edge of the last one: the height is that of the first one's end plus the distance times the number of further items (before the height of the root is replaced in HTML5 mode).", "quantifier": "for all documents with any layout history, any number of items with any contents at any place, all displays and both HTML5 flags", "why_tests_cant": "The number of items is unbounded; tests check lists of a few items, where an error that grows or an exception for the third item need not show.", "anchors": ["src/colosseum/engine.py:layout_box", "src/colosseum/engine.py:calculate_block_non_replaced_normal_flow_height", "src/colosseum/engine.py:layout"]}
{"id": "C202", "title": "A top margin no larger than the margin it collapses with has no effect", "statement": "Between two siblings only the larger margin counts. Take a document that has been laid out and change the top margins of any blocks that come after a laid-out sibling, where each margin is, before and after the change, at most the extent that collapses at the bottom of the sibling before (and no percentage after the change). Then every box keeps its place, its size, its borders, paddings and other margins; only the top margins themselves and the extents collapsed at the top of these boxes differ, and those of first children and of the root do not. Changing top margins of blocks between absolute lengths does not change whether a document can be laid out.", "quantifier": "for all documents with any layout history, any number of changed margins at any depth, all displays and both HTML5 flags", "why_tests_cant": "It relates the layouts of two documents with arbitrarily many margins changed at once; tests fix single pairs of margins.", "anchors": ["src/colosseum/engine.py:layout_box", "src/colosseum/engine.py:layout"]}
{"id": "C203", "title": "A bottom margin no larger than the top margin below it has no effect", "statement": "Take a document that has been laid out and change the bottom margins of any blocks that come before a laid-out sibling, where the extent that collapses at the bottom of each is at most the top margin of the next laid-out sibling, and so is the new margin (in whole pixels, no percentage). Then every box keeps its place, its size, its borders, paddings and other margins; only the bottom margins themselves and the extents collapsed at the bottom of these boxes differ, and those of last children and of the root do not. Changing bottom margins of blocks between absolute lengths does not change whether a document can be laid out.", "quantifier": "for all documents with any layout history, any number of changed margins at any depth, all displays and both HTML5 flags", "why_tests_cant": "It relates the layouts of two documents with arbitrarily many margins changed at once; tests fix single pairs of margins.", "anchors": ["src/colosseum/engine.py:layout_box", "src/colosseum/engine.py:layout"]}
{"id": "C204", "title": "Blocks, list items and flat tables are laid out alike, and so are all refused displays", "statement": "Changing block to list-item anywhere in a document, or back, changes nothing about its layout, and neither does changing either of them to table, or back, at elements without block-level children. All displays other than none, inline, inline-block, block, list-item and table (the parts of tables, inline-table) can be exchanged for each other as well. From every state of the document, laid out or not, the layout gives the same boxes, or raises the same exception and leaves the same boxes behind.", "quantifier": "for all documents in any state, any number of changed displays at any depth, all displays and both HTML5 flags", "why_tests_cant": "It relates two layouts of arbitrary documents, including the failing ones; the tests lay out list items and tables in a few fixed documents only.", "anchors": ["src/colosseum/engine.py:is_block_level_element", "src/colosseum/engine.py:is_block_container", "src/colosseum/engine.py:establishes_inline_formatting_context", "src/colosseum/engine.py:calculate_width_and_margins", "src/colosseum/engine.py:calculate_height_and_margins", "src/colosseum/engine.py:layout_box"]}
{"id": "C205", "title": "Width and height do not apply to inline text", "statement": "The declared width of an inline element that is not replaced has no effect on the layout of anything: CSS does not apply width and height to these elements, their size is the intrinsic one. The same holds of the declared height, unless a child of the element is a block with a declared height (whose percentages refer to the height declared around it). Documents that differ only in such widths and heights give, from every state, the same boxes, or raise the same exception and leave the same boxes behind.", "quantifier": "for all documents in any state, any number of changed widths and heights at any depth, all displays and both HTML5 flags", "why_tests_cant": "The absence of an effect on every box of every document, including failing layouts, is not covered by any number of examples.", "anchors": ["src/colosseum/engine.py:calculate_inline_non_replaced_width", "src/colosseum/engine.py:calculate_inline_non_replaced_height", "src/colosseum/engine.py:calculate_block_non_replaced_normal_flow_height", "src/colosseum/engine.py:layout_box"]}
{"id": "C206", "title": "Where intrinsic sizes matter", "statement": "Apart from being replaced or not, the intrinsic size of an element matters only to inline elements: text uses its intrinsic width and height; a replaced inline element uses its intrinsic width only if no width is declared, and its intrinsic height and ratio only if no height is declared. The intrinsic size of a block is never used, and whether an intrinsic width or height is exact or a minimum is never used by any element. Documents with the same declarations whose intrinsic sizes agree where they matter have the same boxes, and one can be laid out exactly when the other can.", "quantifier": "for all pairs of documents with any layout history, differing in intrinsic sizes at any number of elements, all displays and both HTML5 flags", "why_tests_cant": "That a value has no influence on any box of any document cannot be tested; the tests use fixed intrinsic sizes.", "anchors": ["src/colosseum/dimensions.py:Size", "src/colosseum/engine.py:calculate_inline_replaced_width", "src/colosseum/engine.py:calculate_inline_replaced_height", "src/colosseum/engine.py:calculate_inline_non_replaced_width", "src/colosseum/engine.py:calculate_inline_non_replaced_height", "src/colosseum/engine.py:layout"]}
{"id": "C207", "title": "Inline children do not see each other", "statement": "Inline children are laid out on top of each other: in an element whose children are not stacked (none of them is block-level, or the element is neither a block nor a list item), the order of all children but the last has no influence on any box of the document, two children with the same declarations get identical boxes at the same place, and whether the document can be laid out does not depend on that order.", "quantifier": "for all documents with any layout history, all such elements at any depth (any number of them reordered at once), all permutations that keep the last child last, all displays and both HTML5 flags", "why_tests_cant": "The statement quantifies over all permutations of the children at all elements of all documents; the tests contain a few fixed orders.", "anchors": ["src/colosseum/engine.py:layout_box", "src/colosseum/engine.py:establishes_inline_formatting_context"]}
{"id": "C208", "title": "Top margins of first blocks move nothing but the root", "statement": "Change the top margins (to any values, percentages included) of the root, of the first block-level child of any blocks and list items, and of any block-level children of other elements, at any number of places. If both documents can be laid out, every box below the root keeps its place in its container, its size, its borders, paddings and other margins; only the top margins themselves and the extents collapsed at the top differ. The root keeps everything as well, except that it is moved down by exactly the change of the extent collapsed at its top, and in HTML5 mode its height is smaller by as much. In CSS such a margin collapses with that of the parent and would move the parent away from the block before it; here it is lost.", "quantifier": "for all pairs of documents with any layout history that differ in such margins at any number of elements, all displays and both HTML5 flags", "why_tests_cant": "That margins of any size have no influence on any box of any document cannot be tested; the tests contain a few fixed margins.", "anchors": ["src/colosseum/engine.py:layout_box", "src/colosseum/engine.py:layout"]}
{"id": "C209", "title": "The left and right sides of inline text move nothing", "statement": "Give any inline elements that are not replaced other margins, borders and paddings on the left and right. If both documents can be laid out, all boxes have the same sizes and positions and the same vertical margins, borders and paddings; only these sides themselves differ. In particular the content of the text is not moved by its own left margin, border or padding, and what comes after it is not pushed. If the sides are not percentages, one document can be laid out exactly when the other can. In CSS the text and what follows it would be moved.", "quantifier": "for all pairs of documents with any layout history that differ in these declarations at any number of inline elements, all displays and both HTML5 flags", "why_tests_cant": "That declarations have no influence on the size or place of any box of any document cannot be tested; the tests use a few fixed values.", "anchors": ["src/colosseum/engine.py:calculate_inline_non_replaced_width", "src/colosseum/engine.py:layout_box"]}
{"id": "C210", "title": "Only the last child of a line matters to anything outside", "statement": "In an element whose children are not stacked (none of them is block-level, or the element is neither a block nor a list item), replace all children but the last by any others of that kind, any number of them, also none. If both documents can be laid out, every other box of the document is the same: that of the element (its height follows the last child only, however high the others are), that of the last child and everything outside. In CSS the line would be as high as its highest part.", "quantifier": "for all pairs of documents with any layout history that differ in this way at any number of elements at any depth, all displays and both HTML5 flags", "why_tests_cant": "The statement quantifies over arbitrary replacements of children in all documents; the tests contain a few fixed documents.", "anchors": ["src/colosseum/engine.py:layout_box", "src/colosseum/engine.py:establishes_inline_formatting_context", "src/colosseum/engine.py:calculate_block_non_replaced_normal_flow_height"]}
{"id": "C211", "title": "The right side of inline images moves nothing", "statement": "Give any replaced inline elements other margins, borders and paddings on the right. If both documents can be laid out, all other used values of all boxes are the same; nothing that comes after the image is pushed. Excepted are images whose width follows from the space left in the container: without declared width and height and without intrinsic width and height, but with a ratio. If the sides are not percentages, one document can be laid out exactly when the other can.", "quantifier": "for all pairs of documents with any layout history that differ in these declarations at any number of elements, all displays and both HTML5 flags", "why_tests_cant": "That declarations have no influence on any other value of any box of any document cannot be tested.", "anchors": ["src/colosseum/engine.py:calculate_inline_replaced_width", "src/colosseum/engine.py:layout_box"]}
{"id": "C212", "title": "All parts of a line start in the corner of the container", "statement": "In a laid-out document, every child of an element whose children are not stacked (none of them is block-level, or the element is neither a block nor a list item), unless it is relatively positioned, lies in the upper left corner of the content box of its parent, whatever comes before it: an image with its upper and left margin edges, text with its upper margin edge and, on the left, with its content, anything else with its left margin edge and its upper border edge. In CSS the parts of a line follow each other.", "quantifier": "for all documents with any layout history, all such elements and children at any depth, all displays and both HTML5 flags", "why_tests_cant": "The statement is about the place of every such child in every document.", "anchors": ["src/colosseum/engine.py:layout_box", "src/colosseum/engine.py:establishes_inline_formatting_context"]}
