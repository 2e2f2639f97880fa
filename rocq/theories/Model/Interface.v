(** The public functions of the C interface, written by tools/capi.py from src/vanillapdf/implementation/: one entry for each
    function, with the types of its parameters and what its body does with them in the order of the source (Model/Boundary.v
    explains the steps).  The comment before the entries names the file; the lines are beside each entry.

    The class of a [Give] is the static type of the pointer that the body stores through the result parameter, as declared by the
    methods it calls (the headers under src/vanillapdf). *)
From Coq Require Import List String.
From Verif Require Import Model.Boundary.
Import ListNotations.
Local Open Scope string_scope.

(** the base classes the headers under src/vanillapdf/ declare for each class, in the order of the declaration *)
Definition bases : list (string * list string) :=
  [ ("ASCII85DecodeFilter", ["FilterBase"]);
    ("ASCIIHexDecodeFilter", ["FilterBase"]);
    ("AnnotationBase", ["HighLevelObject"]);
    ("AttributeList", ["IUnknown"]);
    ("BaseAttribute", ["IUnknown"]);
    ("BaseFontRange", ["IUnknown"]);
    ("BaseInstructionCollection", ["IUnknown"; "IModifyObservable"]);
    ("BaseInstructionCollection::Iterator", ["BaseIterator"]);
    ("BaseIterator", ["IUnknown"]);
    ("BooleanObject", ["ContainableObject"]);
    ("Buffer", ["IUnknown"; "IModifyObservable"]);
    ("BufferArray", ["IUnknown"]);
    ("ButtonField", ["Field"]);
    ("ByteRange", ["IUnknown"]);
    ("ByteRangeCollection", ["HighLevelObject"]);
    ("Catalog", ["HighLevelObject"]);
    ("CharacterMapBase", ["HighLevelObject"]);
    ("ChoiceField", ["Field"]);
    ("ContainableObject", ["Object"]);
    ("ContentObjectBase", ["InstructionBase"]);
    ("ContentStreamParser", ["ParserBase"]);
    ("DCTDecodeFilter", ["FilterBase"]);
    ("Date", ["HighLevelObject"]);
    ("DestinationBase", ["HighLevelObject"]);
    ("DeveloperExtension", ["HighLevelObject"]);
    ("DeveloperExtensions", ["HighLevelObject"]);
    ("DeveloperExtensions::Iterator", ["BaseIterator"]);
    ("DictionaryObject", ["DictionaryObjectBase"; "IModifyObserver"]);
    ("DictionaryObject::Iterator", ["BaseIterator"]);
    ("DictionaryObjectBase", ["ContainableObject"]);
    ("DigitalSignature", ["HighLevelObject"]);
    ("Document", ["IUnknown"; "IWeakReferenceable"]);
    ("DocumentEncryptionSettings", ["IUnknown"]);
    ("DocumentInfo", ["HighLevelObject"]);
    ("DocumentSignatureSettings", ["IUnknown"]);
    ("EmbeddedCharacterMap", ["CharacterMapBase"]);
    ("Field", ["HighLevelObject"]);
    ("FieldCollection", ["HighLevelObject"]);
    ("File", ["IUnknown"; "IWeakReferenceable"]);
    ("FileWriter", ["IFileWriterObservable"]);
    ("FilterBase", ["IUnknown"]);
    ("FlateDecodeFilter", ["FilterBase"]);
    ("FontBase", ["HighLevelObject"]);
    ("FontMap", ["HighLevelObject"]);
    ("HexadecimalStringObject", ["StringObjectBase"; "IModifyObserver"]);
    ("HighLevelObject", ["IUnknown"]);
    ("IEncryptionKey", ["IUnknown"; "IWeakReferenceable"]);
    ("IFileWriterObservable", ["IUnknown"; "IObservable"]);
    ("IFileWriterObserver", ["IUnknown"; "IWeakReferenceable"]);
    ("IInputOutputStream", ["IInputStream"; "IOutputStream"]);
    ("IInputStream", ["IUnknown"]);
    ("IModifyObservable", ["IObservable"]);
    ("IModifyObserver", ["IUnknown"; "IWeakReferenceable"]);
    ("IObservable", []);
    ("IOutputStream", ["IUnknown"]);
    ("ISigningKey", ["IUnknown"; "IWeakReferenceable"]);
    ("IUnknown", []);
    ("IWeakReferenceable", []);
    ("ImageMetadataObjectAttribute", ["BaseAttribute"]);
    ("IndirectReferenceObject", ["ContainableObject"]);
    ("InlineImageObject", ["ContentObjectBase"]);
    ("InstructionBase", ["IUnknown"]);
    ("IntegerObject", ["NumericObject"]);
    ("InteractiveForm", ["HighLevelObject"]);
    ("JPXDecodeFilter", ["FilterBase"]);
    ("LZWDecodeFilter", ["FilterBase"]);
    ("LinkAnnotation", ["AnnotationBase"]);
    ("LiteralStringObject", ["StringObjectBase"; "IModifyObserver"]);
    ("MixedArrayObject", ["ContainableObject"; "IModifyObserver"]);
    ("NameObject", ["ContainableObject"; "IModifyObserver"]);
    ("NamedDestinations", ["HighLevelObject"]);
    ("NullObject", ["ContainableObject"]);
    ("NumericObject", ["ContainableObject"; "IModifyObserver"]);
    ("Object", ["IUnknown"; "IWeakReferenceable"; "IModifyObservable"]);
    ("OperationBase", ["InstructionBase"]);
    ("OperationBeginText", ["OperationBase"]);
    ("OperationEndText", ["OperationBase"]);
    ("OperationGeneric", ["OperationBase"]);
    ("OperationTextFont", ["OperationBase"]);
    ("OperationTextShow", ["OperationBase"]);
    ("OperationTextShowArray", ["OperationBase"]);
    ("OperatorBase", ["IUnknown"]);
    ("Outline", ["OutlineBase"]);
    ("OutlineBase", ["HighLevelObject"]);
    ("OutlineItem", ["OutlineBase"]);
    ("OutlineItemColor", ["HighLevelObject"]);
    ("OutlineItemFlags", ["HighLevelObject"]);
    ("PKCS12Key", ["IEncryptionKey"; "ISigningKey"]);
    ("PageAnnotations", ["HighLevelObject"]);
    ("PageContents", ["HighLevelObject"; "IModifyObserver"]);
    ("PageLabel", ["HighLevelObject"]);
    ("PageLabels", ["HighLevelObject"]);
    ("PageNodeBase", ["HighLevelObject"]);
    ("PageObject", ["PageNodeBase"]);
    ("PageRange", ["HighLevelObject"]);
    ("PageRange::SubRange", ["IUnknown"]);
    ("PageTree", ["HighLevelObject"]);
    ("PageTreeNode", ["PageNodeBase"]);
    ("ParserBase", ["Tokenizer"]);
    ("RealObject", ["NumericObject"]);
    ("Rectangle", ["HighLevelObject"]);
    ("ResourceDictionary", ["HighLevelObject"]);
    ("SerializationOverrideAttribute", ["BaseAttribute"]);
    ("SignatureField", ["Field"]);
    ("StreamObject", ["Object"; "IModifyObserver"]);
    ("StringObjectBase", ["ContainableObject"]);
    ("TextField", ["Field"]);
    ("TextObject", ["ContentObjectBase"]);
    ("Tokenizer", ["IUnknown"]);
    ("Type0Font", ["FontBase"]);
    ("UnicodeCharacterMap", ["CharacterMapBase"]);
    ("ViewerPreferences", ["HighLevelObject"]);
    ("XrefBase", ["IModifyObserver"; "IModifyObservable"]);
    ("XrefBase::Iterator", ["BaseIterator"]);
    ("XrefChain", ["IUnknown"]);
    ("XrefChain::Iterator", ["BaseIterator"]);
    ("XrefCompressedEntry", ["XrefUsedEntryBase"]);
    ("XrefEntryBase", ["IUnknown"; "IModifyObservable"]);
    ("XrefFreeEntry", ["XrefEntryBase"]);
    ("XrefTable", ["XrefBase"]);
    ("XrefUsedEntry", ["XrefUsedEntryBase"]);
    ("XrefUsedEntryBase", ["XrefEntryBase"; "IWeakReferenceable"; "IModifyObserver"]) ].

(** src/vanillapdf/implementation/contents/c_base_font_range.cpp *)
Definition fns_c_base_font_range : list fn :=
  [ Fn "BaseFontRange_Create" [PResult "BaseFontRangeHandle"] [Check 0; Work; Give 0 "BaseFontRangeHandle" "BaseFontRange"] (* 11-20 *);
    Fn "BaseFontRange_GetRangeLow" [PHandle "BaseFontRangeHandle"; PResult "HexadecimalStringObjectHandle"] [Check 0; Check 1; Work; Use 0 "BaseFontRange"; Give 1 "HexadecimalStringObjectHandle" "HexadecimalStringObject"] (* 22-33 *);
    Fn "BaseFontRange_SetRangeLow" [PHandle "BaseFontRangeHandle"; PHandle "HexadecimalStringObjectHandle"] [Check 0; Check 1; Work; Use 0 "BaseFontRange"; Use 1 "HexadecimalStringObject"] (* 35-46 *);
    Fn "BaseFontRange_GetRangeHigh" [PHandle "BaseFontRangeHandle"; PResult "HexadecimalStringObjectHandle"] [Check 0; Check 1; Work; Use 0 "BaseFontRange"; Give 1 "HexadecimalStringObjectHandle" "HexadecimalStringObject"] (* 48-59 *);
    Fn "BaseFontRange_SetRangeHigh" [PHandle "BaseFontRangeHandle"; PHandle "HexadecimalStringObjectHandle"] [Check 0; Check 1; Work; Use 0 "BaseFontRange"; Use 1 "HexadecimalStringObject"] (* 61-72 *);
    Fn "BaseFontRange_GetDestination" [PHandle "BaseFontRangeHandle"; PResult "ObjectHandle"] [Check 0; Check 1; Work; Use 0 "BaseFontRange"; Give 1 "ObjectHandle" "Object"] (* 74-85 *);
    Fn "BaseFontRange_SetDestination" [PHandle "BaseFontRangeHandle"; PHandle "ObjectHandle"] [Check 0; Check 1; Work; Use 0 "BaseFontRange"; Use 1 "Object"] (* 87-98 *);
    Fn "BaseFontRange_Contains" [PHandle "BaseFontRangeHandle"; PHandle "BufferHandle"; PPointer "boolean_type*"] [Check 0; Check 1; Check 2; Work; Touch 2; Use 0 "BaseFontRange"; Use 1 "Buffer"] (* 100-112 *);
    Fn "BaseFontRange_GetMappedValue" [PHandle "BaseFontRangeHandle"; PHandle "BufferHandle"; PResult "BufferHandle"] [Check 0; Check 1; Check 2; Work; Use 0 "BaseFontRange"; Use 1 "Buffer"; Give 2 "BufferHandle" "Buffer"] (* 114-128 *);
    Fn "BaseFontRange_ToUnknown" [PHandle "BaseFontRangeHandle"; PResult "IUnknownHandle"] [Check 0; Check 1; Convert 0 "BaseFontRange" 1 "IUnknownHandle" "IUnknown"] (* 130-132 *);
    Fn "BaseFontRange_FromUnknown" [PHandle "IUnknownHandle"; PResult "BaseFontRangeHandle"] [Check 0; Check 1; Convert 0 "IUnknown" 1 "BaseFontRangeHandle" "BaseFontRange"] (* 134-136 *);
    Fn "BaseFontRange_Release" [PHandle "BaseFontRangeHandle"] [Check 0; Drop 0 "BaseFontRange"] (* 138-140 *) ].

(** src/vanillapdf/implementation/contents/c_content_instruction.cpp *)
Definition fns_c_content_instruction : list fn :=
  [ Fn "ContentInstruction_GetInstructionType" [PHandle "ContentInstructionHandle"; PPointer "ContentInstructionType*"] [Check 0; Check 1; Use 0 "InstructionBase"; Touch 1] (* 13-28 *);
    Fn "ContentInstruction_ToOperation" [PHandle "ContentInstructionHandle"; PResult "ContentOperationHandle"] [Check 0; Check 1; Convert 0 "InstructionBase" 1 "ContentOperationHandle" "OperationBase"] (* 30-32 *);
    Fn "ContentInstruction_ToUnknown" [PHandle "ContentInstructionHandle"; PResult "IUnknownHandle"] [Check 0; Check 1; Convert 0 "InstructionBase" 1 "IUnknownHandle" "IUnknown"] (* 34-36 *);
    Fn "ContentInstruction_FromUnknown" [PHandle "IUnknownHandle"; PResult "ContentInstructionHandle"] [Check 0; Check 1; Convert 0 "IUnknown" 1 "ContentInstructionHandle" "InstructionBase"] (* 38-40 *);
    Fn "ContentInstruction_Release" [PHandle "ContentInstructionHandle"] [Check 0; Drop 0 "InstructionBase"] (* 42-44 *);
    Fn "ContentInstructionCollection_GetSize" [PHandle "ContentInstructionCollectionHandle"; PPointer "size_type*"] [Check 0; Check 1; Work; Touch 1; Use 0 "BaseInstructionCollection"] (* 48-58 *);
    Fn "ContentInstructionCollection_At" [PHandle "ContentInstructionCollectionHandle"; PValue "size_type"; PResult "ContentInstructionHandle"] [Check 0; Check 2; Work; Use 0 "BaseInstructionCollection"; Give 2 "ContentInstructionHandle" "InstructionBase"] (* 60-72 *);
    Fn "ContentInstructionCollection_Append" [PHandle "ContentInstructionCollectionHandle"; PHandle "ContentInstructionHandle"] [Check 0; Check 1; Work; Use 0 "BaseInstructionCollection"; Use 1 "InstructionBase"] (* 74-86 *);
    Fn "ContentInstructionCollection_Insert" [PHandle "ContentInstructionCollectionHandle"; PValue "size_type"; PHandle "ContentInstructionHandle"] [Check 0; Check 2; Work; Use 2 "InstructionBase"; Use 0 "BaseInstructionCollection"] (* 88-101 *);
    Fn "ContentInstructionCollection_Remove" [PHandle "ContentInstructionCollectionHandle"; PValue "size_type"] [Check 0; Use 0 "BaseInstructionCollection"] (* 103-109 *);
    Fn "ContentInstructionCollection_Clear" [PHandle "ContentInstructionCollectionHandle"] [Check 0; Use 0 "BaseInstructionCollection"] (* 111-117 *);
    Fn "ContentInstructionCollection_GetIterator" [PHandle "ContentInstructionCollectionHandle"; PResult "ContentInstructionCollectionIteratorHandle"] [Check 0; Check 1; Work; Use 0 "BaseInstructionCollection"; Give 1 "ContentInstructionCollectionIteratorHandle" "BaseInstructionCollection::Iterator"] (* 119-131 *);
    Fn "ContentInstructionCollection_ToUnknown" [PHandle "ContentInstructionCollectionHandle"; PResult "IUnknownHandle"] [Check 0; Check 1; Convert 0 "BaseInstructionCollection" 1 "IUnknownHandle" "IUnknown"] (* 133-135 *);
    Fn "ContentInstructionCollection_FromUnknown" [PHandle "IUnknownHandle"; PResult "ContentInstructionCollectionHandle"] [Check 0; Check 1; Convert 0 "IUnknown" 1 "ContentInstructionCollectionHandle" "BaseInstructionCollection"] (* 137-139 *);
    Fn "ContentInstructionCollection_Release" [PHandle "ContentInstructionCollectionHandle"] [Check 0; Drop 0 "BaseInstructionCollection"] (* 141-143 *);
    Fn "ContentInstructionCollectionIterator_GetValue" [PHandle "ContentInstructionCollectionIteratorHandle"; PResult "ContentInstructionHandle"] [Check 0; Check 1; Work; Use 0 "BaseInstructionCollection::Iterator"; Give 1 "ContentInstructionHandle" "InstructionBase"] (* 147-159 *);
    Fn "ContentInstructionCollectionIterator_IsValid" [PHandle "ContentInstructionCollectionIteratorHandle"; PPointer "boolean_type*"] [Check 0; Check 1; Work; Use 0 "BaseInstructionCollection::Iterator"; Touch 1] (* 161-177 *);
    Fn "ContentInstructionCollectionIterator_Next" [PHandle "ContentInstructionCollectionIteratorHandle"] [Check 0; Work; Use 0 "BaseInstructionCollection::Iterator"] (* 179-188 *);
    Fn "ContentInstructionCollectionIterator_ToUnknown" [PHandle "ContentInstructionCollectionIteratorHandle"; PResult "IUnknownHandle"] [Check 0; Check 1; Convert 0 "BaseInstructionCollection::Iterator" 1 "IUnknownHandle" "IUnknown"] (* 190-192 *);
    Fn "ContentInstructionCollectionIterator_FromUnknown" [PHandle "IUnknownHandle"; PResult "ContentInstructionCollectionIteratorHandle"] [Check 0; Check 1; Convert 0 "IUnknown" 1 "ContentInstructionCollectionIteratorHandle" "BaseInstructionCollection::Iterator"] (* 194-196 *);
    Fn "ContentInstructionCollectionIterator_Release" [PHandle "ContentInstructionCollectionIteratorHandle"] [Check 0; Drop 0 "BaseInstructionCollection::Iterator"] (* 198-200 *) ].

(** src/vanillapdf/implementation/contents/c_content_object.cpp *)
Definition fns_c_content_object : list fn :=
  [ Fn "ContentObject_GetObjectType" [PHandle "ContentObjectHandle"; PPointer "ContentObjectType*"] [Check 0; Check 1; Use 0 "ContentObjectBase"; Touch 1] (* 11-27 *);
    Fn "ContentObject_ToInlineImage" [PHandle "ContentObjectHandle"; PResult "ContentObjectInlineImageHandle"] [Check 0; Check 1; Convert 0 "ContentObjectBase" 1 "ContentObjectInlineImageHandle" "InlineImageObject"] (* 29-31 *);
    Fn "ContentObject_ToInstruction" [PHandle "ContentObjectHandle"; PResult "ContentInstructionHandle"] [Check 0; Check 1; Convert 0 "ContentObjectBase" 1 "ContentInstructionHandle" "InstructionBase"] (* 33-35 *);
    Fn "ContentObject_FromInstruction" [PHandle "ContentInstructionHandle"; PResult "ContentObjectHandle"] [Check 0; Check 1; Convert 0 "InstructionBase" 1 "ContentObjectHandle" "ContentObjectBase"] (* 37-39 *);
    Fn "ContentObject_Release" [PHandle "ContentObjectHandle"] [Check 0; Drop 0 "ContentObjectBase"] (* 41-43 *);
    Fn "ContentObjectInlineImage_GetDictionary" [PHandle "ContentObjectInlineImageHandle"; PResult "DictionaryObjectHandle"] [Check 0; Check 1; Work; Use 0 "InlineImageObject"; Give 1 "DictionaryObjectHandle" "DictionaryObject"] (* 45-57 *);
    Fn "ContentObjectInlineImage_GetData" [PHandle "ContentObjectInlineImageHandle"; PResult "BufferHandle"] [Check 0; Check 1; Work; Use 0 "InlineImageObject"; Give 1 "BufferHandle" "Buffer"] (* 59-71 *);
    Fn "ContentObjectInlineImage_Release" [PHandle "ContentObjectInlineImageHandle"] [Check 0; Drop 0 "InlineImageObject"] (* 73-75 *);
    Fn "ContentObjectText_GetOperationsSize" [PHandle "ContentObjectTextHandle"; PPointer "size_type*"] [Check 0; Check 1; Work; Touch 1; Use 0 "TextObject"] (* 77-87 *);
    Fn "ContentObjectText_GetOperationAt" [PHandle "ContentObjectTextHandle"; PValue "size_type"; PResult "ContentOperationHandle"] [Check 0; Check 2; Work; Use 0 "TextObject"; Give 2 "ContentOperationHandle" "OperationBase"] (* 89-101 *);
    Fn "ContentObjectText_ToContentObject" [PHandle "ContentObjectTextHandle"; PResult "ContentObjectHandle"] [Check 0; Check 1; Convert 0 "TextObject" 1 "ContentObjectHandle" "ContentObjectBase"] (* 103-105 *);
    Fn "ContentObjectText_FromContentObject" [PHandle "ContentObjectHandle"; PResult "ContentObjectTextHandle"] [Check 0; Check 1; Convert 0 "ContentObjectBase" 1 "ContentObjectTextHandle" "TextObject"] (* 107-109 *);
    Fn "ContentObjectText_Release" [PHandle "ContentObjectTextHandle"] [Check 0; Drop 0 "TextObject"] (* 111-113 *) ].

(** src/vanillapdf/implementation/contents/c_content_operation.cpp *)
Definition fns_c_content_operation : list fn :=
  [ Fn "ContentOperation_GetOperationType" [PHandle "ContentOperationHandle"; PPointer "ContentOperationType*"] [Check 0; Check 1; Use 0 "OperationBase"; Touch 1] (* 13-173 *);
    Fn "ContentOperation_ToBeginText" [PHandle "ContentOperationHandle"; PResult "ContentOperationBeginTextHandle"] [Check 0; Check 1; Convert 0 "OperationBase" 1 "ContentOperationBeginTextHandle" "OperationBeginText"] (* 175-177 *);
    Fn "ContentOperation_ToEndText" [PHandle "ContentOperationHandle"; PResult "ContentOperationEndTextHandle"] [Check 0; Check 1; Convert 0 "OperationBase" 1 "ContentOperationEndTextHandle" "OperationEndText"] (* 179-181 *);
    Fn "ContentOperation_ToInstruction" [PHandle "ContentOperationHandle"; PResult "ContentInstructionHandle"] [Check 0; Check 1; Convert 0 "OperationBase" 1 "ContentInstructionHandle" "InstructionBase"] (* 183-185 *);
    Fn "ContentOperation_FromInstruction" [PHandle "ContentInstructionHandle"; PResult "ContentOperationHandle"] [Check 0; Check 1; Convert 0 "InstructionBase" 1 "ContentOperationHandle" "OperationBase"] (* 187-189 *);
    Fn "ContentOperation_Release" [PHandle "ContentOperationHandle"] [Check 0; Drop 0 "OperationBase"] (* 191-193 *);
    Fn "ContentOperationGeneric_GetOperator" [PHandle "ContentOperationGenericHandle"; PResult "ContentOperatorHandle"] [Check 0; Check 1; Work; Use 0 "OperationGeneric"; Give 1 "ContentOperatorHandle" "OperatorBase"] (* 195-207 *);
    Fn "ContentOperationGeneric_GetOperandsSize" [PHandle "ContentOperationGenericHandle"; PPointer "size_type*"] [Check 0; Check 1; Work; Touch 1; Use 0 "OperationGeneric"] (* 209-219 *);
    Fn "ContentOperationGeneric_GetOperandAt" [PHandle "ContentOperationGenericHandle"; PValue "size_type"; PResult "ObjectHandle"] [Check 0; Check 2; Work; Use 0 "OperationGeneric"; Give 2 "ObjectHandle" "Object"] (* 221-233 *);
    Fn "ContentOperationGeneric_ToContentOperation" [PHandle "ContentOperationGenericHandle"; PResult "ContentOperationHandle"] [Check 0; Check 1; Convert 0 "OperationGeneric" 1 "ContentOperationHandle" "OperationBase"] (* 235-237 *);
    Fn "ContentOperationGeneric_FromContentOperation" [PHandle "ContentOperationHandle"; PResult "ContentOperationGenericHandle"] [Check 0; Check 1; Convert 0 "OperationBase" 1 "ContentOperationGenericHandle" "OperationGeneric"] (* 239-241 *);
    Fn "ContentOperationGeneric_Release" [PHandle "ContentOperationGenericHandle"] [Check 0; Drop 0 "OperationGeneric"] (* 243-245 *);
    Fn "ContentOperationTextFont_GetScale" [PHandle "ContentOperationTextFontHandle"; PResult "RealObjectHandle"] [Check 0; Check 1; Work; Use 0 "OperationTextFont"; Give 1 "RealObjectHandle" "RealObject"] (* 247-259 *);
    Fn "ContentOperationTextFont_SetScale" [PHandle "ContentOperationTextFontHandle"; PHandle "RealObjectHandle"] [Check 0; Check 1; Work; Use 0 "OperationTextFont"; Use 1 "RealObject"] (* 261-272 *);
    Fn "ContentOperationTextFont_GetName" [PHandle "ContentOperationTextFontHandle"; PResult "NameObjectHandle"] [Check 0; Check 1; Work; Use 0 "OperationTextFont"; Give 1 "NameObjectHandle" "NameObject"] (* 274-286 *);
    Fn "ContentOperationTextFont_SetName" [PHandle "ContentOperationTextFontHandle"; PHandle "NameObjectHandle"] [Check 0; Check 1; Work; Use 0 "OperationTextFont"; Use 1 "NameObject"] (* 288-299 *);
    Fn "ContentOperationTextFont_ToContentOperation" [PHandle "ContentOperationTextFontHandle"; PResult "ContentOperationHandle"] [Check 0; Check 1; Convert 0 "OperationTextFont" 1 "ContentOperationHandle" "OperationBase"] (* 301-303 *);
    Fn "ContentOperationTextFont_FromContentOperation" [PHandle "ContentOperationHandle"; PResult "ContentOperationTextFontHandle"] [Check 0; Check 1; Convert 0 "OperationBase" 1 "ContentOperationTextFontHandle" "OperationTextFont"] (* 305-307 *);
    Fn "ContentOperationTextFont_Release" [PHandle "ContentOperationTextFontHandle"] [Check 0; Drop 0 "OperationTextFont"] (* 309-311 *);
    Fn "ContentOperationTextShow_SetValue" [PHandle "ContentOperationTextShowHandle"; PHandle "StringObjectHandle"] [Check 0; Check 1; Work; Use 0 "OperationTextShow"; Use 1 "StringObjectBase"] (* 313-324 *);
    Fn "ContentOperationTextShow_GetValue" [PHandle "ContentOperationTextShowHandle"; PResult "StringObjectHandle"] [Check 0; Check 1; Work; Use 0 "OperationTextShow"; Give 1 "StringObjectHandle" "StringObjectBase"] (* 326-338 *);
    Fn "ContentOperationTextShow_ToContentOperation" [PHandle "ContentOperationTextShowHandle"; PResult "ContentOperationHandle"] [Check 0; Check 1; Convert 0 "OperationTextShow" 1 "ContentOperationHandle" "OperationBase"] (* 340-342 *);
    Fn "ContentOperationTextShow_FromContentOperation" [PHandle "ContentOperationHandle"; PResult "ContentOperationTextShowHandle"] [Check 0; Check 1; Convert 0 "OperationBase" 1 "ContentOperationTextShowHandle" "OperationTextShow"] (* 344-346 *);
    Fn "ContentOperationTextShow_Release" [PHandle "ContentOperationTextShowHandle"] [Check 0; Drop 0 "OperationTextShow"] (* 348-350 *);
    Fn "ContentOperationTextShowArray_GetValue" [PHandle "ContentOperationTextShowArrayHandle"; PResult "ArrayObjectHandle"] [Check 0; Check 1; Work; Use 0 "OperationTextShowArray"; Give 1 "ArrayObjectHandle" "MixedArrayObject"] (* 352-364 *);
    Fn "ContentOperationTextShowArray_SetValue" [PHandle "ContentOperationTextShowArrayHandle"; PHandle "ArrayObjectHandle"] [Check 0; Check 1; Work; Use 0 "OperationTextShowArray"; Use 1 "MixedArrayObject"] (* 366-377 *);
    Fn "ContentOperationTextShowArray_ToContentOperation" [PHandle "ContentOperationTextShowArrayHandle"; PResult "ContentOperationHandle"] [Check 0; Check 1; Convert 0 "OperationTextShowArray" 1 "ContentOperationHandle" "OperationBase"] (* 379-381 *);
    Fn "ContentOperationTextShowArray_FromContentOperation" [PHandle "ContentOperationHandle"; PResult "ContentOperationTextShowArrayHandle"] [Check 0; Check 1; Convert 0 "OperationBase" 1 "ContentOperationTextShowArrayHandle" "OperationTextShowArray"] (* 383-385 *);
    Fn "ContentOperationTextShowArray_Release" [PHandle "ContentOperationTextShowArrayHandle"] [Check 0; Drop 0 "OperationTextShowArray"] (* 387-389 *);
    Fn "ContentOperationEndText_Release" [PHandle "ContentOperationEndTextHandle"] [Check 0; Drop 0 "OperationEndText"] (* 391-393 *) ].

(** src/vanillapdf/implementation/contents/c_content_operator.cpp *)
Definition fns_c_content_operator : list fn :=
  [ Fn "ContentOperator_GetOperatorType" [PHandle "ContentOperatorHandle"; PPointer "ContentOperatorType*"] [Check 0; Check 1; Use 0 "OperatorBase"; Touch 1] (* 11-171 *);
    Fn "ContentOperator_GetValue" [PHandle "ContentOperatorHandle"; PResult "BufferHandle"] [Check 0; Check 1; Work; Use 0 "OperatorBase"; Give 1 "BufferHandle" "Buffer"] (* 173-185 *);
    Fn "ContentOperator_ToUnknown" [PHandle "ContentOperatorHandle"; PResult "IUnknownHandle"] [Check 0; Check 1; Convert 0 "OperatorBase" 1 "IUnknownHandle" "IUnknown"] (* 187-189 *);
    Fn "ContentOperator_FromUnknown" [PHandle "IUnknownHandle"; PResult "ContentOperatorHandle"] [Check 0; Check 1; Convert 0 "IUnknown" 1 "ContentOperatorHandle" "OperatorBase"] (* 191-193 *);
    Fn "ContentOperator_Release" [PHandle "ContentOperatorHandle"] [Check 0; Drop 0 "OperatorBase"] (* 195-197 *) ].

(** src/vanillapdf/implementation/contents/c_content_parser.cpp *)
Definition fns_c_content_parser : list fn :=
  [ Fn "ContentParser_Create" [PHandle "FileHandle"; PHandle "InputStreamHandle"; PResult "ContentParserHandle"] [Check 0; Check 1; Check 2; Work; Use 0 "File"; Use 1 "IInputStream"; Give 2 "ContentParserHandle" "ContentStreamParser"] (* 13-27 *);
    Fn "ContentParser_ReadInstructionCollection" [PHandle "ContentParserHandle"; PResult "ContentInstructionCollectionHandle"] [Check 0; Check 1; Work; Use 0 "ContentStreamParser"; Give 1 "ContentInstructionCollectionHandle" "BaseInstructionCollection"] (* 29-41 *);
    Fn "ContentParser_ToUnknown" [PHandle "ContentParserHandle"; PResult "IUnknownHandle"] [Check 0; Check 1; Convert 0 "ContentStreamParser" 1 "IUnknownHandle" "IUnknown"] (* 43-45 *);
    Fn "ContentParser_FromUnknown" [PHandle "IUnknownHandle"; PResult "ContentParserHandle"] [Check 0; Check 1; Convert 0 "IUnknown" 1 "ContentParserHandle" "ContentStreamParser"] (* 47-49 *);
    Fn "ContentParser_Release" [PHandle "ContentParserHandle"] [Check 0; Drop 0 "ContentStreamParser"] (* 51-53 *) ].

(** src/vanillapdf/implementation/semantics/c_annotations.cpp *)
Definition fns_c_annotations : list fn :=
  [ Fn "Annotation_GetAnnotationType" [PHandle "AnnotationHandle"; PPointer "AnnotationType*"] [Check 0; Check 1; Use 0 "AnnotationBase"; Touch 1] (* 11-75 *);
    Fn "Annotation_ToUnknown" [PHandle "AnnotationHandle"; PResult "IUnknownHandle"] [Check 0; Check 1; Convert 0 "AnnotationBase" 1 "IUnknownHandle" "IUnknown"] (* 77-79 *);
    Fn "Annotation_FromUnknown" [PHandle "IUnknownHandle"; PResult "AnnotationHandle"] [Check 0; Check 1; Convert 0 "IUnknown" 1 "AnnotationHandle" "AnnotationBase"] (* 81-83 *);
    Fn "Annotation_Release" [PHandle "AnnotationHandle"] [Check 0; Drop 0 "AnnotationBase"] (* 85-87 *);
    Fn "LinkAnnotation_GetDestination" [PHandle "LinkAnnotationHandle"; PResult "DestinationHandle"] [Check 0; Check 1; Work; Use 0 "LinkAnnotation"; Give 1 "DestinationHandle" "DestinationBase"] (* 89-107 *);
    Fn "LinkAnnotation_ToBaseAnnotation" [PHandle "LinkAnnotationHandle"; PResult "AnnotationHandle"] [Check 0; Check 1; Convert 0 "LinkAnnotation" 1 "AnnotationHandle" "AnnotationBase"] (* 109-111 *);
    Fn "LinkAnnotation_FromBaseAnnotation" [PHandle "AnnotationHandle"; PResult "LinkAnnotationHandle"] [Check 0; Check 1; Convert 0 "AnnotationBase" 1 "LinkAnnotationHandle" "LinkAnnotation"] (* 113-115 *);
    Fn "LinkAnnotation_Release" [PHandle "LinkAnnotationHandle"] [Check 0; Drop 0 "LinkAnnotation"] (* 117-119 *);
    Fn "PageAnnotations_GetSize" [PHandle "PageAnnotationsHandle"; PPointer "size_type*"] [Check 0; Check 1; Work; Touch 1; Use 0 "PageAnnotations"] (* 121-132 *);
    Fn "PageAnnotations_At" [PHandle "PageAnnotationsHandle"; PValue "size_type"; PResult "AnnotationHandle"] [Check 0; Check 2; Work; Use 0 "PageAnnotations"; Give 2 "AnnotationHandle" "AnnotationBase"] (* 134-147 *);
    Fn "PageAnnotations_ToUnknown" [PHandle "PageAnnotationsHandle"; PResult "IUnknownHandle"] [Check 0; Check 1; Convert 0 "PageAnnotations" 1 "IUnknownHandle" "IUnknown"] (* 149-151 *);
    Fn "PageAnnotations_FromUnknown" [PHandle "IUnknownHandle"; PResult "PageAnnotationsHandle"] [Check 0; Check 1; Convert 0 "IUnknown" 1 "PageAnnotationsHandle" "PageAnnotations"] (* 153-155 *);
    Fn "PageAnnotations_Release" [PHandle "PageAnnotationsHandle"] [Check 0; Drop 0 "PageAnnotations"] (* 157-159 *) ].

(** src/vanillapdf/implementation/semantics/c_catalog.cpp *)
Definition fns_c_catalog : list fn :=
  [ Fn "Catalog_GetPages" [PHandle "CatalogHandle"; PResult "PageTreeHandle"] [Check 0; Check 1; Work; Use 0 "Catalog"; Give 1 "PageTreeHandle" "PageTree"] (* 11-29 *);
    Fn "Catalog_GetVersion" [PHandle "CatalogHandle"; PPointer "PDFVersion*"] [Check 0; Check 1; Work; Use 0 "Catalog"; Touch 1] (* 31-70 *);
    Fn "Catalog_GetExtensions" [PHandle "CatalogHandle"; PResult "DeveloperExtensionsHandle"] [Check 0; Check 1; Work; Use 0 "Catalog"; Give 1 "DeveloperExtensionsHandle" "DeveloperExtensions"] (* 72-90 *);
    Fn "Catalog_GetPageLabels" [PHandle "CatalogHandle"; PResult "PageLabelsHandle"] [Check 0; Check 1; Work; Use 0 "Catalog"; Give 1 "PageLabelsHandle" "PageLabels"] (* 92-110 *);
    Fn "Catalog_GetPageLayout" [PHandle "CatalogHandle"; PPointer "PageLayout*"] [Check 0; Check 1; Work; Use 0 "Catalog"; Touch 1] (* 112-145 *);
    Fn "Catalog_GetViewerPreferences" [PHandle "CatalogHandle"; PResult "ViewerPreferencesHandle"] [Check 0; Check 1; Work; Use 0 "Catalog"; Give 1 "ViewerPreferencesHandle" "ViewerPreferences"] (* 147-165 *);
    Fn "Catalog_GetOutlines" [PHandle "CatalogHandle"; PResult "OutlineHandle"] [Check 0; Check 1; Work; Use 0 "Catalog"; Give 1 "OutlineHandle" "Outline"] (* 167-185 *);
    Fn "Catalog_GetDestinations" [PHandle "CatalogHandle"; PResult "NamedDestinationsHandle"] [Check 0; Check 1; Work; Use 0 "Catalog"; Give 1 "NamedDestinationsHandle" "NamedDestinations"] (* 187-205 *);
    Fn "Catalog_GetAcroForm" [PHandle "CatalogHandle"; PResult "InteractiveFormHandle"] [Check 0; Check 1; Work; Use 0 "Catalog"; Give 1 "InteractiveFormHandle" "InteractiveForm"] (* 207-223 *);
    Fn "Catalog_ToUnknown" [PHandle "CatalogHandle"; PResult "IUnknownHandle"] [Check 0; Check 1; Convert 0 "Catalog" 1 "IUnknownHandle" "IUnknown"] (* 225-227 *);
    Fn "Catalog_FromUnknown" [PHandle "IUnknownHandle"; PResult "CatalogHandle"] [Check 0; Check 1; Convert 0 "IUnknown" 1 "CatalogHandle" "Catalog"] (* 229-231 *);
    Fn "Catalog_Release" [PHandle "CatalogHandle"] [Check 0; Drop 0 "Catalog"] (* 233-235 *) ].

(** src/vanillapdf/implementation/semantics/c_character_map.cpp *)
Definition fns_c_character_map : list fn :=
  [ Fn "CharacterMap_GetCharacterMapType" [PHandle "CharacterMapHandle"; PPointer "CharacterMapType*"] [Check 0; Check 1; Use 0 "CharacterMapBase"; Touch 1] (* 11-27 *);
    Fn "CharacterMap_ToUnknown" [PHandle "CharacterMapHandle"; PResult "IUnknownHandle"] [Check 0; Check 1; Convert 0 "CharacterMapBase" 1 "IUnknownHandle" "IUnknown"] (* 29-31 *);
    Fn "CharacterMap_FromUnknown" [PHandle "IUnknownHandle"; PResult "CharacterMapHandle"] [Check 0; Check 1; Convert 0 "IUnknown" 1 "CharacterMapHandle" "CharacterMapBase"] (* 33-35 *);
    Fn "CharacterMap_Release" [PHandle "CharacterMapHandle"] [Check 0; Drop 0 "CharacterMapBase"] (* 37-39 *);
    Fn "UnicodeCharacterMap_GetMappedValue" [PHandle "UnicodeCharacterMapHandle"; PHandle "BufferHandle"; PResult "BufferHandle"] [Check 0; Check 1; Check 2; Work; Use 0 "UnicodeCharacterMap"; Use 1 "Buffer"; Give 2 "BufferHandle" "Buffer"] (* 41-59 *);
    Fn "UnicodeCharacterMap_ToCharacterMap" [PHandle "UnicodeCharacterMapHandle"; PResult "CharacterMapHandle"] [Check 0; Check 1; Convert 0 "UnicodeCharacterMap" 1 "CharacterMapHandle" "CharacterMapBase"] (* 61-63 *);
    Fn "UnicodeCharacterMap_FromCharacterMap" [PHandle "CharacterMapHandle"; PResult "UnicodeCharacterMapHandle"] [Check 0; Check 1; Convert 0 "CharacterMapBase" 1 "UnicodeCharacterMapHandle" "UnicodeCharacterMap"] (* 65-67 *);
    Fn "UnicodeCharacterMap_Release" [PHandle "UnicodeCharacterMapHandle"] [Check 0; Drop 0 "UnicodeCharacterMap"] (* 69-71 *);
    Fn "EmbeddedCharacterMap_ToCharacterMap" [PHandle "EmbeddedCharacterMapHandle"; PResult "CharacterMapHandle"] [Check 0; Check 1; Convert 0 "EmbeddedCharacterMap" 1 "CharacterMapHandle" "CharacterMapBase"] (* 73-75 *);
    Fn "EmbeddedCharacterMap_FromCharacterMap" [PHandle "CharacterMapHandle"; PResult "EmbeddedCharacterMapHandle"] [Check 0; Check 1; Convert 0 "CharacterMapBase" 1 "EmbeddedCharacterMapHandle" "EmbeddedCharacterMap"] (* 77-79 *);
    Fn "EmbeddedCharacterMap_Release" [PHandle "EmbeddedCharacterMapHandle"] [Check 0; Drop 0 "EmbeddedCharacterMap"] (* 81-83 *) ].

(** src/vanillapdf/implementation/semantics/c_date.cpp *)
Definition fns_c_date : list fn :=
  [ Fn "Date_CreateEmpty" [PResult "DateHandle"] [Check 0; Work; Give 0 "DateHandle" "Date"] (* 10-19 *);
    Fn "Date_CreateCurrent" [PResult "DateHandle"] [Check 0; Work; Give 0 "DateHandle" "Date"] (* 21-30 *);
    Fn "Date_GetYear" [PHandle "DateHandle"; PPointer "integer_type*"] [Check 0; Check 1; Touch 1; Use 0 "Date"] (* 32-40 *);
    Fn "Date_SetYear" [PHandle "DateHandle"; PValue "integer_type"] [Check 0; Use 0 "Date"] (* 42-48 *);
    Fn "Date_GetMonth" [PHandle "DateHandle"; PPointer "integer_type*"] [Check 0; Check 1; Touch 1; Use 0 "Date"] (* 50-58 *);
    Fn "Date_SetMonth" [PHandle "DateHandle"; PValue "integer_type"] [Check 0; Use 0 "Date"] (* 60-66 *);
    Fn "Date_GetDay" [PHandle "DateHandle"; PPointer "integer_type*"] [Check 0; Check 1; Touch 1; Use 0 "Date"] (* 68-76 *);
    Fn "Date_SetDay" [PHandle "DateHandle"; PValue "integer_type"] [Check 0; Use 0 "Date"] (* 78-84 *);
    Fn "Date_GetHour" [PHandle "DateHandle"; PPointer "integer_type*"] [Check 0; Check 1; Touch 1; Use 0 "Date"] (* 86-94 *);
    Fn "Date_SetHour" [PHandle "DateHandle"; PValue "integer_type"] [Check 0; Use 0 "Date"] (* 96-102 *);
    Fn "Date_GetMinute" [PHandle "DateHandle"; PPointer "integer_type*"] [Check 0; Check 1; Touch 1; Use 0 "Date"] (* 104-112 *);
    Fn "Date_SetMinute" [PHandle "DateHandle"; PValue "integer_type"] [Check 0; Use 0 "Date"] (* 114-120 *);
    Fn "Date_GetSecond" [PHandle "DateHandle"; PPointer "integer_type*"] [Check 0; Check 1; Touch 1; Use 0 "Date"] (* 122-130 *);
    Fn "Date_SetSecond" [PHandle "DateHandle"; PValue "integer_type"] [Check 0; Use 0 "Date"] (* 132-138 *);
    Fn "Date_GetTimezone" [PHandle "DateHandle"; PPointer "TimezoneType*"] [Check 0; Check 1; Use 0 "Date"; Touch 1] (* 140-158 *);
    Fn "Date_SetTimezone" [PHandle "DateHandle"; PValue "TimezoneType"] [Check 0; Use 0 "Date"] (* 160-176 *);
    Fn "Date_GetHourOffset" [PHandle "DateHandle"; PPointer "integer_type*"] [Check 0; Check 1; Touch 1; Use 0 "Date"] (* 178-186 *);
    Fn "Date_SetHourOffset" [PHandle "DateHandle"; PValue "integer_type"] [Check 0; Use 0 "Date"] (* 188-194 *);
    Fn "Date_GetMinuteOffset" [PHandle "DateHandle"; PPointer "integer_type*"] [Check 0; Check 1; Touch 1; Use 0 "Date"] (* 196-204 *);
    Fn "Date_SetMinuteOffset" [PHandle "DateHandle"; PValue "integer_type"] [Check 0; Use 0 "Date"] (* 206-212 *);
    Fn "Date_ToUnknown" [PHandle "DateHandle"; PResult "IUnknownHandle"] [Check 0; Check 1; Convert 0 "Date" 1 "IUnknownHandle" "IUnknown"] (* 214-216 *);
    Fn "Date_FromUnknown" [PHandle "IUnknownHandle"; PResult "DateHandle"] [Check 0; Check 1; Convert 0 "IUnknown" 1 "DateHandle" "Date"] (* 218-220 *);
    Fn "Date_Release" [PHandle "DateHandle"] [Check 0; Drop 0 "Date"] (* 222-224 *) ].

(** src/vanillapdf/implementation/semantics/c_destinations.cpp *)
Definition fns_c_destinations : list fn :=
  [ Fn "Destination_GetPageNumber" [PHandle "DestinationHandle"; PResult "ObjectHandle"] [Check 0; Check 1; Work; Use 0 "DestinationBase"; Give 1 "ObjectHandle" "Object"] (* 11-24 *);
    Fn "Destination_Release" [PHandle "DestinationHandle"] [Check 0; Drop 0 "DestinationBase"] (* 26-29 *);
    Fn "NamedDestinations_Contains" [PHandle "NamedDestinationsHandle"; PHandle "NameObjectHandle"; PPointer "boolean_type*"] [Check 0; Check 1; Check 2; Work; Touch 2; Use 0 "NamedDestinations"; Use 1 "NameObject"] (* 31-44 *);
    Fn "NamedDestinations_Find" [PHandle "NamedDestinationsHandle"; PHandle "NameObjectHandle"; PResult "DestinationHandle"] [Check 0; Check 1; Check 2; Work; Use 0 "NamedDestinations"; Use 1 "NameObject"; Give 2 "DestinationHandle" "DestinationBase"] (* 46-61 *);
    Fn "NamedDestinations_Release" [PHandle "NamedDestinationsHandle"] [Check 0; Drop 0 "NamedDestinations"] (* 62-65 *) ].

(** src/vanillapdf/implementation/semantics/c_developer_extensions.cpp *)
Definition fns_c_developer_extensions : list fn :=
  [ Fn "DeveloperExtension_GetBaseVersion" [PHandle "DeveloperExtensionHandle"; PPointer "PDFVersion*"] [Check 0; Check 1; Work; Use 0 "DeveloperExtension"; Touch 1] (* 11-44 *);
    Fn "DeveloperExtension_GetExtensionLevel" [PHandle "DeveloperExtensionHandle"; PResult "IntegerObjectHandle"] [Check 0; Check 1; Work; Use 0 "DeveloperExtension"; Give 1 "IntegerObjectHandle" "IntegerObject"] (* 46-59 *);
    Fn "DeveloperExtension_Release" [PHandle "DeveloperExtensionHandle"] [Check 0; Drop 0 "DeveloperExtension"] (* 61-64 *);
    Fn "DeveloperExtensions_GetIterator" [PHandle "DeveloperExtensionsHandle"; PResult "DeveloperExtensionsIteratorHandle"] [Check 0; Check 1; Work; Use 0 "DeveloperExtensions"; Give 1 "DeveloperExtensionsIteratorHandle" "DeveloperExtensions::Iterator"] (* 66-79 *);
    Fn "DeveloperExtensions_Release" [PHandle "DeveloperExtensionsHandle"] [Check 0; Drop 0 "DeveloperExtensions"] (* 81-84 *);
    Fn "DeveloperExtensionsIterator_GetKey" [PHandle "DeveloperExtensionsIteratorHandle"; PResult "NameObjectHandle"] [Check 0; Check 1; Work; Use 0 "DeveloperExtensions::Iterator"; Give 1 "NameObjectHandle" "NameObject"] (* 86-99 *);
    Fn "DeveloperExtensionsIterator_GetValue" [PHandle "DeveloperExtensionsIteratorHandle"; PResult "DeveloperExtensionHandle"] [Check 0; Check 1; Work; Use 0 "DeveloperExtensions::Iterator"; Give 1 "DeveloperExtensionHandle" "DeveloperExtension"] (* 101-114 *);
    Fn "DeveloperExtensionsIterator_IsValid" [PHandle "DeveloperExtensionsIteratorHandle"; PPointer "boolean_type*"] [Check 0; Check 1; Work; Use 0 "DeveloperExtensions::Iterator"; Touch 1] (* 116-133 *);
    Fn "DeveloperExtensionsIterator_Next" [PHandle "DeveloperExtensionsIteratorHandle"] [Check 0; Work; Use 0 "DeveloperExtensions::Iterator"] (* 135-145 *);
    Fn "DeveloperExtensionsIterator_Release" [PHandle "DeveloperExtensionsIteratorHandle"] [Check 0; Drop 0 "DeveloperExtensions::Iterator"] (* 147-150 *) ].

(** src/vanillapdf/implementation/semantics/c_digital_signature.cpp *)
Definition fns_c_digital_signature : list fn :=
  [ Fn "DigitalSignature_GetContactInfo" [PHandle "DigitalSignatureHandle"; PResult "StringObjectHandle"] [Check 0; Check 1; Work; Use 0 "DigitalSignature"; Give 1 "StringObjectHandle" "StringObjectBase"] (* 11-24 *);
    Fn "DigitalSignature_GetReason" [PHandle "DigitalSignatureHandle"; PResult "StringObjectHandle"] [Check 0; Check 1; Work; Use 0 "DigitalSignature"; Give 1 "StringObjectHandle" "StringObjectBase"] (* 26-39 *);
    Fn "DigitalSignature_GetLocation" [PHandle "DigitalSignatureHandle"; PResult "StringObjectHandle"] [Check 0; Check 1; Work; Use 0 "DigitalSignature"; Give 1 "StringObjectHandle" "StringObjectBase"] (* 41-54 *);
    Fn "DigitalSignature_GetSigningTime" [PHandle "DigitalSignatureHandle"; PResult "DateHandle"] [Check 0; Check 1; Work; Use 0 "DigitalSignature"; Give 1 "DateHandle" "Date"] (* 56-69 *);
    Fn "DigitalSignature_GetName" [PHandle "DigitalSignatureHandle"; PResult "StringObjectHandle"] [Check 0; Check 1; Work; Use 0 "DigitalSignature"; Give 1 "StringObjectHandle" "StringObjectBase"] (* 71-84 *);
    Fn "DigitalSignature_GetRevision" [PHandle "DigitalSignatureHandle"; PResult "IntegerObjectHandle"] [Check 0; Check 1; Work; Use 0 "DigitalSignature"; Give 1 "IntegerObjectHandle" "IntegerObject"] (* 86-99 *);
    Fn "DigitalSignature_GetCertificate" [PHandle "DigitalSignatureHandle"; PResult "StringObjectHandle"] [Check 0; Check 1; Work; Use 0 "DigitalSignature"; Give 1 "StringObjectHandle" "StringObjectBase"] (* 101-114 *);
    Fn "DigitalSignature_GetContents" [PHandle "DigitalSignatureHandle"; PResult "HexadecimalStringObjectHandle"] [Check 0; Check 1; Work; Use 0 "DigitalSignature"; Give 1 "HexadecimalStringObjectHandle" "HexadecimalStringObject"] (* 116-127 *);
    Fn "DigitalSignature_GetByteRange" [PHandle "DigitalSignatureHandle"; PResult "ByteRangeCollectionHandle"] [Check 0; Check 1; Work; Use 0 "DigitalSignature"; Give 1 "ByteRangeCollectionHandle" "ByteRangeCollection"] (* 129-142 *);
    Fn "ByteRange_GetOffset" [PHandle "ByteRangeHandle"; PResult "IntegerObjectHandle"] [Check 0; Check 1; Work; Use 0 "ByteRange"; Give 1 "IntegerObjectHandle" "IntegerObject"] (* 144-155 *);
    Fn "ByteRange_GetLength" [PHandle "ByteRangeHandle"; PResult "IntegerObjectHandle"] [Check 0; Check 1; Work; Use 0 "ByteRange"; Give 1 "IntegerObjectHandle" "IntegerObject"] (* 157-168 *);
    Fn "ByteRangeCollection_GetSize" [PHandle "ByteRangeCollectionHandle"; PPointer "size_type*"] [Check 0; Check 1; Work; Touch 1; Use 0 "ByteRangeCollection"] (* 170-179 *);
    Fn "ByteRangeCollection_GetValue" [PHandle "ByteRangeCollectionHandle"; PValue "size_type"; PResult "ByteRangeHandle"] [Check 0; Check 2; Work; Use 0 "ByteRangeCollection"; Give 2 "ByteRangeHandle" "ByteRange"] (* 181-192 *);
    Fn "ByteRange_Release" [PHandle "ByteRangeHandle"] [Check 0; Drop 0 "ByteRange"] (* 194-196 *);
    Fn "ByteRangeCollection_Release" [PHandle "ByteRangeCollectionHandle"] [Check 0; Drop 0 "ByteRangeCollection"] (* 198-200 *);
    Fn "DigitalSignature_Release" [PHandle "DigitalSignatureHandle"] [Check 0; Drop 0 "DigitalSignature"] (* 202-204 *) ].

(** src/vanillapdf/implementation/semantics/c_document.cpp *)
Definition fns_c_document : list fn :=
  [ Fn "Document_Open" [PPointer "string_type"; PResult "DocumentHandle"] [Check 0; Check 1; Work; Touch 0; Give 1 "DocumentHandle" "Document"] (* 11-24 *);
    Fn "Document_OpenFile" [PHandle "FileHandle"; PResult "DocumentHandle"] [Check 0; Check 1; Work; Use 0 "File"; Give 1 "DocumentHandle" "Document"] (* 26-37 *);
    Fn "Document_Create" [PPointer "string_type"; PResult "DocumentHandle"] [Check 0; Check 1; Work; Touch 0; Give 1 "DocumentHandle" "Document"] (* 39-50 *);
    Fn "Document_CreateFile" [PHandle "FileHandle"; PResult "DocumentHandle"] [Check 0; Check 1; Work; Use 0 "File"; Give 1 "DocumentHandle" "Document"] (* 52-64 *);
    Fn "Document_Save" [PHandle "DocumentHandle"; PPointer "string_type"] [Check 0; Check 1; Work; Use 0 "Document"; Touch 1] (* 66-77 *);
    Fn "Document_SaveFile" [PHandle "DocumentHandle"; PHandle "FileHandle"] [Check 0; Check 1; Work; Use 0 "Document"; Use 1 "File"] (* 79-89 *);
    Fn "Document_SaveIncremental" [PHandle "DocumentHandle"; PPointer "string_type"] [Check 0; Check 1; Work; Use 0 "Document"; Touch 1] (* 91-102 *);
    Fn "Document_SaveIncrementalFile" [PHandle "DocumentHandle"; PHandle "FileHandle"] [Check 0; Check 1; Work; Use 0 "Document"; Use 1 "File"] (* 104-114 *);
    Fn "Document_GetCatalog" [PHandle "DocumentHandle"; PResult "CatalogHandle"] [Check 0; Check 1; Work; Use 0 "Document"; Give 1 "CatalogHandle" "Catalog"] (* 116-134 *);
    Fn "Document_GetDocumentInfo" [PHandle "DocumentHandle"; PResult "DocumentInfoHandle"] [Check 0; Check 1; Work; Use 0 "Document"; Give 1 "DocumentInfoHandle" "DocumentInfo"] (* 136-154 *);
    Fn "Document_AppendDocument" [PHandle "DocumentHandle"; PHandle "DocumentHandle"] [Check 0; Check 1; Work; Use 0 "Document"; Use 1 "Document"] (* 156-168 *);
    Fn "Document_Sign" [PHandle "DocumentHandle"; PHandle "FileHandle"; PHandle "DocumentSignatureSettingsHandle"] [Check 0; Check 1; Check 2; Work; Use 0 "Document"; Use 1 "File"; Use 2 "DocumentSignatureSettings"] (* 170-183 *);
    Fn "Document_AddEncryption" [PHandle "DocumentHandle"; PHandle "DocumentEncryptionSettingsHandle"] [Check 0; Check 1; Work; Use 0 "Document"; Use 1 "DocumentEncryptionSettings"] (* 185-197 *);
    Fn "Document_RemoveEncryption" [PHandle "DocumentHandle"] [Check 0; Work; Use 0 "Document"] (* 199-208 *);
    Fn "Document_ToUnknown" [PHandle "DocumentHandle"; PResult "IUnknownHandle"] [Check 0; Check 1; Convert 0 "Document" 1 "IUnknownHandle" "IUnknown"] (* 210-212 *);
    Fn "Document_FromUnknown" [PHandle "IUnknownHandle"; PResult "DocumentHandle"] [Check 0; Check 1; Convert 0 "IUnknown" 1 "DocumentHandle" "Document"] (* 214-216 *);
    Fn "Document_Release" [PHandle "DocumentHandle"] [Check 0; Drop 0 "Document"] (* 218-220 *) ].

(** src/vanillapdf/implementation/semantics/c_document_encryption_settings.cpp *)
Definition fns_c_document_encryption_settings : list fn :=
  [ Fn "DocumentEncryptionSettings_Create" [PResult "DocumentEncryptionSettingsHandle"] [Check 0; Work; Give 0 "DocumentEncryptionSettingsHandle" "DocumentEncryptionSettings"] (* 25-34 *);
    Fn "DocumentEncryptionSettings_GetAlgorithm" [PHandle "DocumentEncryptionSettingsHandle"; PPointer "EncryptionAlgorithmType*"] [Check 0; Check 1; Use 0 "DocumentEncryptionSettings"; Touch 1] (* 36-55 *);
    Fn "DocumentEncryptionSettings_SetAlgorithm" [PHandle "DocumentEncryptionSettingsHandle"; PValue "EncryptionAlgorithmType"] [Check 0; Use 0 "DocumentEncryptionSettings"] (* 57-75 *);
    Fn "DocumentEncryptionSettings_GetKeyLength" [PHandle "DocumentEncryptionSettingsHandle"; PPointer "integer_type*"] [Check 0; Check 1; Touch 1; Use 0 "DocumentEncryptionSettings"] (* 77-84 *);
    Fn "DocumentEncryptionSettings_SetKeyLength" [PHandle "DocumentEncryptionSettingsHandle"; PValue "integer_type"] [Check 0; Use 0 "DocumentEncryptionSettings"] (* 86-92 *);
    Fn "DocumentEncryptionSettings_GetUserAccessPermissions" [PHandle "DocumentEncryptionSettingsHandle"; PPointer "UserAccessPermissionFlags*"] [Check 0; Check 1; Touch 1; Use 0 "DocumentEncryptionSettings"] (* 94-102 *);
    Fn "DocumentEncryptionSettings_SetUserAccessPermissions" [PHandle "DocumentEncryptionSettingsHandle"; PValue "UserAccessPermissionFlags"] [Check 0; Use 0 "DocumentEncryptionSettings"] (* 104-113 *);
    Fn "DocumentEncryptionSettings_GetUserPassword" [PHandle "DocumentEncryptionSettingsHandle"; PResult "BufferHandle"] [Check 0; Check 1; Work; Use 0 "DocumentEncryptionSettings"; Give 1 "BufferHandle" "Buffer"] (* 115-127 *);
    Fn "DocumentEncryptionSettings_SetUserPassword" [PHandle "DocumentEncryptionSettingsHandle"; PHandle "BufferHandle"] [Check 0; Check 1; Work; Use 0 "DocumentEncryptionSettings"; Use 1 "Buffer"] (* 129-140 *);
    Fn "DocumentEncryptionSettings_GetOwnerPassword" [PHandle "DocumentEncryptionSettingsHandle"; PResult "BufferHandle"] [Check 0; Check 1; Work; Use 0 "DocumentEncryptionSettings"; Give 1 "BufferHandle" "Buffer"] (* 142-154 *);
    Fn "DocumentEncryptionSettings_SetOwnerPassword" [PHandle "DocumentEncryptionSettingsHandle"; PHandle "BufferHandle"] [Check 0; Check 1; Work; Use 0 "DocumentEncryptionSettings"; Use 1 "Buffer"] (* 156-167 *);
    Fn "DocumentEncryptionSettings_ToUnknown" [PHandle "DocumentEncryptionSettingsHandle"; PResult "IUnknownHandle"] [Check 0; Check 1; Convert 0 "DocumentEncryptionSettings" 1 "IUnknownHandle" "IUnknown"] (* 169-171 *);
    Fn "DocumentEncryptionSettings_FromUnknown" [PHandle "IUnknownHandle"; PResult "DocumentEncryptionSettingsHandle"] [Check 0; Check 1; Convert 0 "IUnknown" 1 "DocumentEncryptionSettingsHandle" "DocumentEncryptionSettings"] (* 173-175 *);
    Fn "DocumentEncryptionSettings_Release" [PHandle "DocumentEncryptionSettingsHandle"] [Check 0; Drop 0 "DocumentEncryptionSettings"] (* 177-179 *) ].

(** src/vanillapdf/implementation/semantics/c_document_info.cpp *)
Definition fns_c_document_info : list fn :=
  [ Fn "DocumentInfo_GetTitle" [PHandle "DocumentInfoHandle"; PResult "StringObjectHandle"] [Check 0; Check 1; Work; Use 0 "DocumentInfo"; Give 1 "StringObjectHandle" "StringObjectBase"] (* 12-27 *);
    Fn "DocumentInfo_GetAuthor" [PHandle "DocumentInfoHandle"; PResult "StringObjectHandle"] [Check 0; Check 1; Work; Use 0 "DocumentInfo"; Give 1 "StringObjectHandle" "StringObjectBase"] (* 29-44 *);
    Fn "DocumentInfo_GetSubject" [PHandle "DocumentInfoHandle"; PResult "StringObjectHandle"] [Check 0; Check 1; Work; Use 0 "DocumentInfo"; Give 1 "StringObjectHandle" "StringObjectBase"] (* 46-61 *);
    Fn "DocumentInfo_GetKeywords" [PHandle "DocumentInfoHandle"; PResult "StringObjectHandle"] [Check 0; Check 1; Work; Use 0 "DocumentInfo"; Give 1 "StringObjectHandle" "StringObjectBase"] (* 63-78 *);
    Fn "DocumentInfo_GetCreator" [PHandle "DocumentInfoHandle"; PResult "StringObjectHandle"] [Check 0; Check 1; Work; Use 0 "DocumentInfo"; Give 1 "StringObjectHandle" "StringObjectBase"] (* 80-95 *);
    Fn "DocumentInfo_GetProducer" [PHandle "DocumentInfoHandle"; PResult "StringObjectHandle"] [Check 0; Check 1; Work; Use 0 "DocumentInfo"; Give 1 "StringObjectHandle" "StringObjectBase"] (* 97-112 *);
    Fn "DocumentInfo_GetCreationDate" [PHandle "DocumentInfoHandle"; PResult "DateHandle"] [Check 0; Check 1; Work; Use 0 "DocumentInfo"; Give 1 "DateHandle" "Date"] (* 114-129 *);
    Fn "DocumentInfo_GetModificationDate" [PHandle "DocumentInfoHandle"; PResult "DateHandle"] [Check 0; Check 1; Work; Use 0 "DocumentInfo"; Give 1 "DateHandle" "Date"] (* 131-146 *);
    Fn "DocumentInfo_GetTrapped" [PHandle "DocumentInfoHandle"; PPointer "DocumentTrappedType*"] [Check 0; Check 1; Work; Use 0 "DocumentInfo"; Touch 1] (* 148-174 *);
    Fn "DocumentInfo_ToUnknown" [PHandle "DocumentInfoHandle"; PResult "IUnknownHandle"] [Check 0; Check 1; Convert 0 "DocumentInfo" 1 "IUnknownHandle" "IUnknown"] (* 176-178 *);
    Fn "DocumentInfo_FromUnknown" [PHandle "IUnknownHandle"; PResult "DocumentInfoHandle"] [Check 0; Check 1; Convert 0 "IUnknown" 1 "DocumentInfoHandle" "DocumentInfo"] (* 180-182 *);
    Fn "DocumentInfo_Release" [PHandle "DocumentInfoHandle"] [Check 0; Drop 0 "DocumentInfo"] (* 184-186 *) ].

(** src/vanillapdf/implementation/semantics/c_document_signature_settings.cpp *)
Definition fns_c_document_signature_settings : list fn :=
  [ Fn "DocumentSignatureSettings_Create" [PResult "DocumentSignatureSettingsHandle"] [Check 0; Work; Give 0 "DocumentSignatureSettingsHandle" "DocumentSignatureSettings"] (* 12-21 *);
    Fn "DocumentSignatureSettings_GetDigest" [PHandle "DocumentSignatureSettingsHandle"; PPointer "MessageDigestAlgorithmType*"] [Check 0; Check 1; Work; Use 0 "DocumentSignatureSettings"; Touch 1] (* 23-62 *);
    Fn "DocumentSignatureSettings_SetDigest" [PHandle "DocumentSignatureSettingsHandle"; PValue "MessageDigestAlgorithmType"] [Check 0; Work; Use 0 "DocumentSignatureSettings"] (* 64-105 *);
    Fn "DocumentSignatureSettings_GetSigningKey" [PHandle "DocumentSignatureSettingsHandle"; PResult "SigningKeyHandle"] [Check 0; Check 1; Work; Use 0 "DocumentSignatureSettings"; Give 1 "SigningKeyHandle" "ISigningKey"] (* 107-123 *);
    Fn "DocumentSignatureSettings_SetSigningKey" [PHandle "DocumentSignatureSettingsHandle"; PHandle "SigningKeyHandle"] [Check 0; Check 1; Work; Use 0 "DocumentSignatureSettings"; Use 1 "ISigningKey"] (* 125-135 *);
    Fn "DocumentSignatureSettings_GetName" [PHandle "DocumentSignatureSettingsHandle"; PResult "LiteralStringObjectHandle"] [Check 0; Check 1; Work; Use 0 "DocumentSignatureSettings"; Give 1 "LiteralStringObjectHandle" "LiteralStringObject"] (* 137-153 *);
    Fn "DocumentSignatureSettings_SetName" [PHandle "DocumentSignatureSettingsHandle"; PHandle "LiteralStringObjectHandle"] [Check 0; Check 1; Work; Use 0 "DocumentSignatureSettings"; Use 1 "LiteralStringObject"] (* 155-165 *);
    Fn "DocumentSignatureSettings_GetLocation" [PHandle "DocumentSignatureSettingsHandle"; PResult "LiteralStringObjectHandle"] [Check 0; Check 1; Work; Use 0 "DocumentSignatureSettings"; Give 1 "LiteralStringObjectHandle" "LiteralStringObject"] (* 167-183 *);
    Fn "DocumentSignatureSettings_SetLocation" [PHandle "DocumentSignatureSettingsHandle"; PHandle "LiteralStringObjectHandle"] [Check 0; Check 1; Work; Use 0 "DocumentSignatureSettings"; Use 1 "LiteralStringObject"] (* 185-195 *);
    Fn "DocumentSignatureSettings_GetReason" [PHandle "DocumentSignatureSettingsHandle"; PResult "LiteralStringObjectHandle"] [Check 0; Check 1; Work; Use 0 "DocumentSignatureSettings"; Give 1 "LiteralStringObjectHandle" "LiteralStringObject"] (* 197-213 *);
    Fn "DocumentSignatureSettings_SetReason" [PHandle "DocumentSignatureSettingsHandle"; PHandle "LiteralStringObjectHandle"] [Check 0; Check 1; Work; Use 0 "DocumentSignatureSettings"; Use 1 "LiteralStringObject"] (* 215-225 *);
    Fn "DocumentSignatureSettings_GetSigningTime" [PHandle "DocumentSignatureSettingsHandle"; PResult "DateHandle"] [Check 0; Check 1; Work; Use 0 "DocumentSignatureSettings"; Give 1 "DateHandle" "Date"] (* 227-243 *);
    Fn "DocumentSignatureSettings_SetSigningTime" [PHandle "DocumentSignatureSettingsHandle"; PHandle "DateHandle"] [Check 0; Check 1; Work; Use 0 "DocumentSignatureSettings"; Use 1 "Date"] (* 245-255 *);
    Fn "DocumentSignatureSettings_GetCertificate" [PHandle "DocumentSignatureSettingsHandle"; PResult "HexadecimalStringObjectHandle"] [Check 0; Check 1; Work; Use 0 "DocumentSignatureSettings"; Give 1 "HexadecimalStringObjectHandle" "HexadecimalStringObject"] (* 257-273 *);
    Fn "DocumentSignatureSettings_SetCertificate" [PHandle "DocumentSignatureSettingsHandle"; PHandle "HexadecimalStringObjectHandle"] [Check 0; Check 1; Work; Use 0 "DocumentSignatureSettings"; Use 1 "HexadecimalStringObject"] (* 275-285 *);
    Fn "DocumentSignatureSettings_ToUnknown" [PHandle "DocumentSignatureSettingsHandle"; PResult "IUnknownHandle"] [Check 0; Check 1; Convert 0 "DocumentSignatureSettings" 1 "IUnknownHandle" "IUnknown"] (* 287-289 *);
    Fn "DocumentSignatureSettings_FromUnknown" [PHandle "IUnknownHandle"; PResult "DocumentSignatureSettingsHandle"] [Check 0; Check 1; Convert 0 "IUnknown" 1 "DocumentSignatureSettingsHandle" "DocumentSignatureSettings"] (* 291-293 *);
    Fn "DocumentSignatureSettings_Release" [PHandle "DocumentSignatureSettingsHandle"] [Check 0; Drop 0 "DocumentSignatureSettings"] (* 295-297 *) ].

(** src/vanillapdf/implementation/semantics/c_fields.cpp *)
Definition fns_c_fields : list fn :=
  [ Fn "Field_GetType" [PHandle "FieldHandle"; PPointer "FieldType*"] [Check 0; Check 1; Use 0 "Field"; Touch 1] (* 10-31 *);
    Fn "FieldCollection_GetSize" [PHandle "FieldCollectionHandle"; PPointer "size_type*"] [Check 0; Check 1; Work; Touch 1; Use 0 "FieldCollection"] (* 33-42 *);
    Fn "FieldCollection_At" [PHandle "FieldCollectionHandle"; PValue "size_type"; PResult "FieldHandle"] [Check 0; Check 2; Work; Use 0 "FieldCollection"; Give 2 "FieldHandle" "Field"] (* 44-55 *);
    Fn "SignatureField_GetValue" [PHandle "SignatureFieldHandle"; PResult "DigitalSignatureHandle"] [Check 0; Check 1; Work; Use 0 "SignatureField"; Give 1 "DigitalSignatureHandle" "DigitalSignature"] (* 57-70 *);
    Fn "Field_ToButton" [PHandle "FieldHandle"; PResult "ButtonFieldHandle"] [Check 0; Check 1; Convert 0 "Field" 1 "ButtonFieldHandle" "ButtonField"] (* 72-74 *);
    Fn "Field_ToText" [PHandle "FieldHandle"; PResult "TextFieldHandle"] [Check 0; Check 1; Convert 0 "Field" 1 "TextFieldHandle" "TextField"] (* 76-78 *);
    Fn "Field_ToChoice" [PHandle "FieldHandle"; PResult "ChoiceFieldHandle"] [Check 0; Check 1; Convert 0 "Field" 1 "ChoiceFieldHandle" "ChoiceField"] (* 80-82 *);
    Fn "Field_ToSignature" [PHandle "FieldHandle"; PResult "SignatureFieldHandle"] [Check 0; Check 1; Convert 0 "Field" 1 "SignatureFieldHandle" "SignatureField"] (* 84-86 *);
    Fn "FieldCollection_Release" [PHandle "FieldCollectionHandle"] [Check 0; Drop 0 "FieldCollection"] (* 88-90 *);
    Fn "Field_Release" [PHandle "FieldHandle"] [Check 0; Drop 0 "Field"] (* 92-94 *);
    Fn "ButtonField_Release" [PHandle "ButtonFieldHandle"] [Check 0; Drop 0 "ButtonField"] (* 96-98 *);
    Fn "TextField_Release" [PHandle "TextFieldHandle"] [Check 0; Drop 0 "TextField"] (* 100-102 *);
    Fn "ChoiceField_Release" [PHandle "ChoiceFieldHandle"] [Check 0; Drop 0 "ChoiceField"] (* 104-106 *);
    Fn "SignatureField_Release" [PHandle "SignatureFieldHandle"] [Check 0; Drop 0 "SignatureField"] (* 108-110 *) ].

(** src/vanillapdf/implementation/semantics/c_font.cpp *)
Definition fns_c_font : list fn :=
  [ Fn "Font_CreateFromObject" [PHandle "DictionaryObjectHandle"; PResult "FontHandle"] [Check 0; Check 1; Work; Use 0 "DictionaryObject"; Give 1 "FontHandle" "FontBase"] (* 11-27 *);
    Fn "Font_GetFontType" [PHandle "FontHandle"; PPointer "FontType*"] [Check 0; Check 1; Use 0 "FontBase"; Touch 1] (* 29-55 *);
    Fn "Font_GetUnicodeMap" [PHandle "FontHandle"; PResult "UnicodeCharacterMapHandle"] [Check 0; Check 1; Work; Use 0 "FontBase"; Give 1 "UnicodeCharacterMapHandle" "UnicodeCharacterMap"] (* 57-72 *);
    Fn "Font_ToUnknown" [PHandle "FontHandle"; PResult "IUnknownHandle"] [Check 0; Check 1; Convert 0 "FontBase" 1 "IUnknownHandle" "IUnknown"] (* 74-76 *);
    Fn "Font_FromUnknown" [PHandle "IUnknownHandle"; PResult "FontHandle"] [Check 0; Check 1; Convert 0 "IUnknown" 1 "FontHandle" "FontBase"] (* 78-80 *);
    Fn "Font_Release" [PHandle "FontHandle"] [Check 0; Drop 0 "FontBase"] (* 82-84 *);
    Fn "Type0Font_ToFont" [PHandle "Type0FontHandle"; PResult "FontHandle"] [Check 0; Check 1; Convert 0 "Type0Font" 1 "FontHandle" "FontBase"] (* 86-88 *);
    Fn "Type0Font_FromFont" [PHandle "FontHandle"; PResult "Type0FontHandle"] [Check 0; Check 1; Convert 0 "FontBase" 1 "Type0FontHandle" "Type0Font"] (* 90-92 *);
    Fn "Type0Font_Release" [PHandle "Type0FontHandle"] [Check 0; Drop 0 "Type0Font"] (* 94-96 *) ].

(** src/vanillapdf/implementation/semantics/c_font_map.cpp *)
Definition fns_c_font_map : list fn :=
  [ Fn "FontMap_Contains" [PHandle "FontMapHandle"; PHandle "NameObjectHandle"; PPointer "boolean_type*"] [Check 0; Check 1; Check 2; Work; Touch 2; Use 0 "FontMap"; Use 1 "NameObject"] (* 11-24 *);
    Fn "FontMap_Find" [PHandle "FontMapHandle"; PHandle "NameObjectHandle"; PResult "FontHandle"] [Check 0; Check 1; Check 2; Work; Use 0 "FontMap"; Use 1 "NameObject"; Give 2 "FontHandle" "FontBase"] (* 26-41 *);
    Fn "FontMap_ToUnknown" [PHandle "FontMapHandle"; PResult "IUnknownHandle"] [Check 0; Check 1; Convert 0 "FontMap" 1 "IUnknownHandle" "IUnknown"] (* 43-45 *);
    Fn "FontMap_FromUnknown" [PHandle "IUnknownHandle"; PResult "FontMapHandle"] [Check 0; Check 1; Convert 0 "IUnknown" 1 "FontMapHandle" "FontMap"] (* 47-49 *);
    Fn "FontMap_Release" [PHandle "FontMapHandle"] [Check 0; Drop 0 "FontMap"] (* 51-53 *) ].

(** src/vanillapdf/implementation/semantics/c_interactive_forms.cpp *)
Definition fns_c_interactive_forms : list fn :=
  [ Fn "InteractiveForm_GetFields" [PHandle "InteractiveFormHandle"; PResult "FieldCollectionHandle"] [Check 0; Check 1; Work; Use 0 "InteractiveForm"; Give 1 "FieldCollectionHandle" "FieldCollection"] (* 10-26 *);
    Fn "InteractiveForm_Release" [PHandle "InteractiveFormHandle"] [Check 0; Drop 0 "InteractiveForm"] (* 28-30 *) ].

(** src/vanillapdf/implementation/semantics/c_outline.cpp *)
Definition fns_c_outline : list fn :=
  [ Fn "OutlineBase_GetOutlineType" [PHandle "OutlineBaseHandle"; PPointer "OutlineType*"] [Check 0; Check 1; Use 0 "OutlineBase"; Touch 1] (* 11-27 *);
    Fn "OutlineBase_ToUnknown" [PHandle "OutlineBaseHandle"; PResult "IUnknownHandle"] [Check 0; Check 1; Convert 0 "OutlineBase" 1 "IUnknownHandle" "IUnknown"] (* 29-31 *);
    Fn "OutlineBase_FromUnknown" [PHandle "IUnknownHandle"; PResult "OutlineBaseHandle"] [Check 0; Check 1; Convert 0 "IUnknown" 1 "OutlineBaseHandle" "OutlineBase"] (* 33-35 *);
    Fn "OutlineBase_Release" [PHandle "OutlineBaseHandle"] [Check 0; Drop 0 "OutlineBase"] (* 37-39 *);
    Fn "Outline_GetFirst" [PHandle "OutlineHandle"; PResult "OutlineItemHandle"] [Check 0; Check 1; Work; Use 0 "Outline"; Give 1 "OutlineItemHandle" "OutlineItem"] (* 41-56 *);
    Fn "Outline_GetLast" [PHandle "OutlineHandle"; PResult "OutlineItemHandle"] [Check 0; Check 1; Work; Use 0 "Outline"; Give 1 "OutlineItemHandle" "OutlineItem"] (* 58-73 *);
    Fn "Outline_GetCount" [PHandle "OutlineHandle"; PResult "IntegerObjectHandle"] [Check 0; Check 1; Work; Use 0 "Outline"; Give 1 "IntegerObjectHandle" "IntegerObject"] (* 75-90 *);
    Fn "Outline_ToOutlineBase" [PHandle "OutlineHandle"; PResult "OutlineBaseHandle"] [Check 0; Check 1; Convert 0 "Outline" 1 "OutlineBaseHandle" "OutlineBase"] (* 92-94 *);
    Fn "Outline_FromOutlineBase" [PHandle "OutlineBaseHandle"; PResult "OutlineHandle"] [Check 0; Check 1; Convert 0 "OutlineBase" 1 "OutlineHandle" "Outline"] (* 96-98 *);
    Fn "Outline_Release" [PHandle "OutlineHandle"] [Check 0; Drop 0 "Outline"] (* 100-102 *);
    Fn "OutlineItem_GetTitle" [PHandle "OutlineItemHandle"; PResult "StringObjectHandle"] [Check 0; Check 1; Work; Use 0 "OutlineItem"; Give 1 "StringObjectHandle" "StringObjectBase"] (* 104-117 *);
    Fn "OutlineItem_GetParent" [PHandle "OutlineItemHandle"; PResult "OutlineBaseHandle"] [Check 0; Check 1; Work; Use 0 "OutlineItem"; Give 1 "OutlineBaseHandle" "OutlineBase"] (* 119-132 *);
    Fn "OutlineItem_GetPrev" [PHandle "OutlineItemHandle"; PResult "OutlineItemHandle"] [Check 0; Check 1; Work; Use 0 "OutlineItem"; Give 1 "OutlineItemHandle" "OutlineItem"] (* 134-149 *);
    Fn "OutlineItem_GetNext" [PHandle "OutlineItemHandle"; PResult "OutlineItemHandle"] [Check 0; Check 1; Work; Use 0 "OutlineItem"; Give 1 "OutlineItemHandle" "OutlineItem"] (* 151-166 *);
    Fn "OutlineItem_GetFirst" [PHandle "OutlineItemHandle"; PResult "OutlineItemHandle"] [Check 0; Check 1; Work; Use 0 "OutlineItem"; Give 1 "OutlineItemHandle" "OutlineItem"] (* 168-183 *);
    Fn "OutlineItem_GetLast" [PHandle "OutlineItemHandle"; PResult "OutlineItemHandle"] [Check 0; Check 1; Work; Use 0 "OutlineItem"; Give 1 "OutlineItemHandle" "OutlineItem"] (* 185-200 *);
    Fn "OutlineItem_GetCount" [PHandle "OutlineItemHandle"; PResult "IntegerObjectHandle"] [Check 0; Check 1; Work; Use 0 "OutlineItem"; Give 1 "IntegerObjectHandle" "IntegerObject"] (* 202-217 *);
    Fn "OutlineItem_GetColor" [PHandle "OutlineItemHandle"; PResult "OutlineItemColorHandle"] [Check 0; Check 1; Work; Use 0 "OutlineItem"; Give 1 "OutlineItemColorHandle" "OutlineItemColor"] (* 219-234 *);
    Fn "OutlineItem_GetFlags" [PHandle "OutlineItemHandle"; PResult "OutlineItemFlagsHandle"] [Check 0; Check 1; Work; Use 0 "OutlineItem"; Give 1 "OutlineItemFlagsHandle" "OutlineItemFlags"] (* 236-251 *);
    Fn "OutlineItem_ToOutlineBase" [PHandle "OutlineItemHandle"; PResult "OutlineBaseHandle"] [Check 0; Check 1; Convert 0 "OutlineItem" 1 "OutlineBaseHandle" "OutlineBase"] (* 253-255 *);
    Fn "OutlineItem_FromOutlineBase" [PHandle "OutlineBaseHandle"; PResult "OutlineItemHandle"] [Check 0; Check 1; Convert 0 "OutlineBase" 1 "OutlineItemHandle" "OutlineItem"] (* 257-259 *);
    Fn "OutlineItem_Release" [PHandle "OutlineItemHandle"] [Check 0; Drop 0 "OutlineItem"] (* 261-263 *);
    Fn "OutlineItemColor_GetRed" [PHandle "OutlineItemColorHandle"; PResult "IntegerObjectHandle"] [Check 0; Check 1; Work; Use 0 "OutlineItemColor"; Give 1 "IntegerObjectHandle" "RealObject"] (* 265-278 *);
    Fn "OutlineItemColor_GetGreen" [PHandle "OutlineItemColorHandle"; PResult "IntegerObjectHandle"] [Check 0; Check 1; Work; Use 0 "OutlineItemColor"; Give 1 "IntegerObjectHandle" "RealObject"] (* 280-293 *);
    Fn "OutlineItemColor_GetBlue" [PHandle "OutlineItemColorHandle"; PResult "IntegerObjectHandle"] [Check 0; Check 1; Work; Use 0 "OutlineItemColor"; Give 1 "IntegerObjectHandle" "RealObject"] (* 295-308 *);
    Fn "OutlineItemColor_Release" [PHandle "OutlineItemColorHandle"] [Check 0; Drop 0 "OutlineItemColor"] (* 310-313 *);
    Fn "OutlineItemFlags_IsItalic" [PHandle "OutlineItemFlagsHandle"; PPointer "boolean_type*"] [Check 0; Check 1; Touch 1; Use 0 "OutlineItemFlags"] (* 315-323 *);
    Fn "OutlineItemFlags_IsBold" [PHandle "OutlineItemFlagsHandle"; PPointer "boolean_type*"] [Check 0; Check 1; Touch 1; Use 0 "OutlineItemFlags"] (* 325-333 *);
    Fn "OutlineItemFlags_Release" [PHandle "OutlineItemFlagsHandle"] [Check 0; Drop 0 "OutlineItemFlags"] (* 335-337 *) ].

(** src/vanillapdf/implementation/semantics/c_page_contents.cpp *)
Definition fns_c_page_contents : list fn :=
  [ Fn "PageContents_GetInstructionCollection" [PHandle "PageContentsHandle"; PResult "ContentInstructionCollectionHandle"] [Check 0; Check 1; Work; Use 0 "PageContents"; Give 1 "ContentInstructionCollectionHandle" "BaseInstructionCollection"] (* 12-25 *);
    Fn "PageContents_RecalculateStreamData" [PHandle "PageContentsHandle"; PPointer "boolean_type*"] [Check 0; Work; Use 0 "PageContents"; Touch 1] (* 27-41 *);
    Fn "PageContents_GetBaseObject" [PHandle "PageContentsHandle"; PResult "ObjectHandle"] [Check 0; Check 1; Work; Use 0 "PageContents"; Give 1 "ObjectHandle" "Object"] (* 43-55 *);
    Fn "PageContents_ToUnknown" [PHandle "PageContentsHandle"; PResult "IUnknownHandle"] [Check 0; Check 1; Convert 0 "PageContents" 1 "IUnknownHandle" "IUnknown"] (* 57-59 *);
    Fn "PageContents_FromUnknown" [PHandle "IUnknownHandle"; PResult "PageContentsHandle"] [Check 0; Check 1; Convert 0 "IUnknown" 1 "PageContentsHandle" "PageContents"] (* 61-63 *);
    Fn "PageContents_Release" [PHandle "PageContentsHandle"] [Check 0; Drop 0 "PageContents"] (* 65-67 *) ].

(** src/vanillapdf/implementation/semantics/c_page_labels.cpp *)
Definition fns_c_page_labels : list fn :=
  [ Fn "PageLabels_Contains" [PHandle "PageLabelsHandle"; PValue "size_type"; PPointer "boolean_type*"] [Check 0; Check 2; Work; Touch 2; Use 0 "PageLabels"] (* 11-22 *);
    Fn "PageLabels_At" [PHandle "PageLabelsHandle"; PValue "size_type"; PResult "PageLabelHandle"] [Check 0; Check 2; Work; Use 0 "PageLabels"; Give 2 "PageLabelHandle" "PageLabel"] (* 24-37 *);
    Fn "PageLabels_Release" [PHandle "PageLabelsHandle"] [Check 0; Drop 0 "PageLabels"] (* 39-46 *);
    Fn "PageLabel_Prefix" [PHandle "PageLabelHandle"; PResult "StringObjectHandle"] [Check 0; Work; Use 0 "PageLabel"; Give 1 "StringObjectHandle" "StringObjectBase"] (* 48-62 *);
    Fn "PageLabel_Start" [PHandle "PageLabelHandle"; PResult "IntegerObjectHandle"] [Check 0; Work; Use 0 "PageLabel"; Give 1 "IntegerObjectHandle" "IntegerObject"] (* 64-78 *);
    Fn "PageLabel_Style" [PHandle "PageLabelHandle"; PPointer "NumberingStyle*"] [Check 0; Work; Use 0 "PageLabel"; Touch 1] (* 80-107 *);
    Fn "PageLabel_Release" [PHandle "PageLabelHandle"] [Check 0; Drop 0 "PageLabel"] (* 109-112 *) ].

(** src/vanillapdf/implementation/semantics/c_page_object.cpp *)
Definition fns_c_page_object : list fn :=
  [ Fn "PageObject_GetContents" [PHandle "PageObjectHandle"; PResult "PageContentsHandle"] [Check 0; Check 1; Work; Use 0 "PageObject"; Give 1 "PageContentsHandle" "PageContents"] (* 13-28 *);
    Fn "PageObject_CreateFromDocument" [PHandle "DocumentHandle"; PResult "PageObjectHandle"] [Check 0; Check 1; Work; Use 0 "Document"; Give 1 "PageObjectHandle" "PageObject"] (* 30-43 *);
    Fn "PageObject_CreateFromObject" [PHandle "DictionaryObjectHandle"; PResult "PageObjectHandle"] [Check 0; Check 1; Work; Use 0 "DictionaryObject"; Give 1 "PageObjectHandle" "PageObject"] (* 45-58 *);
    Fn "PageObject_GetParent" [PHandle "PageObjectHandle"; PResult "PageTreeHandle"] [Check 0; Check 1; Work; Use 0 "PageObject"; Give 1 "PageTreeHandle" "PageNodeBase"] (* 60-73 *);
    Fn "PageObject_GetResources" [PHandle "PageObjectHandle"; PResult "ResourceDictionaryHandle"] [Check 0; Check 1; Work; Use 0 "PageObject"; Give 1 "ResourceDictionaryHandle" "ResourceDictionary"] (* 75-93 *);
    Fn "PageObject_GetAnnotations" [PHandle "PageObjectHandle"; PResult "PageAnnotationsHandle"] [Check 0; Check 1; Work; Use 0 "PageObject"; Give 1 "PageAnnotationsHandle" "PageAnnotations"] (* 95-113 *);
    Fn "PageObject_GetMediaBox" [PHandle "PageObjectHandle"; PResult "RectangleHandle"] [Check 0; Check 1; Work; Use 0 "PageObject"; Give 1 "RectangleHandle" "Rectangle"] (* 115-133 *);
    Fn "PageObject_SetMediaBox" [PHandle "PageObjectHandle"; PHandle "RectangleHandle"] [Check 0; Check 1; Work; Use 0 "PageObject"; Use 1 "Rectangle"] (* 135-147 *);
    Fn "PageObject_GetBaseObject" [PHandle "PageObjectHandle"; PResult "DictionaryObjectHandle"] [Check 0; Check 1; Work; Use 0 "PageObject"; Give 1 "DictionaryObjectHandle" "DictionaryObject"] (* 149-161 *);
    Fn "PageObject_ToUnknown" [PHandle "PageObjectHandle"; PResult "IUnknownHandle"] [Check 0; Check 1; Convert 0 "PageObject" 1 "IUnknownHandle" "IUnknown"] (* 163-165 *);
    Fn "PageObject_FromUnknown" [PHandle "IUnknownHandle"; PResult "PageObjectHandle"] [Check 0; Check 1; Convert 0 "IUnknown" 1 "PageObjectHandle" "PageObject"] (* 167-169 *);
    Fn "PageObject_Release" [PHandle "PageObjectHandle"] [Check 0; Drop 0 "PageObject"] (* 171-173 *) ].

(** src/vanillapdf/implementation/semantics/c_page_tree.cpp *)
Definition fns_c_page_tree : list fn :=
  [ Fn "PageTree_GetPageCount" [PHandle "PageTreeHandle"; PPointer "size_type*"] [Check 0; Check 1; Work; Touch 1; Use 0 "PageTree"] (* 11-22 *);
    Fn "PageTree_GetPage" [PHandle "PageTreeHandle"; PValue "size_type"; PResult "PageObjectHandle"] [Check 0; Check 2; Work; Use 0 "PageTree"; Give 2 "PageObjectHandle" "PageObject"] (* 24-37 *);
    Fn "PageTree_InsertPage" [PHandle "PageTreeHandle"; PValue "size_type"; PHandle "PageObjectHandle"] [Check 0; Check 2; Work; Use 0 "PageTree"; Use 2 "PageObject"] (* 39-51 *);
    Fn "PageTree_AppendPage" [PHandle "PageTreeHandle"; PHandle "PageObjectHandle"] [Check 0; Check 1; Work; Use 0 "PageTree"; Use 1 "PageObject"] (* 53-65 *);
    Fn "PageTree_RemovePage" [PHandle "PageTreeHandle"; PValue "size_type"] [Check 0; Work; Use 0 "PageTree"] (* 67-77 *);
    Fn "PageTree_ToUnknown" [PHandle "PageTreeHandle"; PResult "IUnknownHandle"] [Check 0; Check 1; Convert 0 "PageTree" 1 "IUnknownHandle" "IUnknown"] (* 79-81 *);
    Fn "PageTree_FromUnknown" [PHandle "IUnknownHandle"; PResult "PageTreeHandle"] [Check 0; Check 1; Convert 0 "IUnknown" 1 "PageTreeHandle" "PageTree"] (* 83-85 *);
    Fn "PageTree_Release" [PHandle "PageTreeHandle"] [Check 0; Drop 0 "PageTree"] (* 87-90 *) ].

(** src/vanillapdf/implementation/semantics/c_rectangle.cpp *)
Definition fns_c_rectangle : list fn :=
  [ Fn "Rectangle_Create" [PResult "RectangleHandle"] [Check 0; Work; Give 0 "RectangleHandle" "Rectangle"] (* 11-20 *);
    Fn "Rectangle_GetLowerLeftX" [PHandle "RectangleHandle"; PPointer "bigint_type*"] [Check 0; Check 1; Work; Touch 1; Use 0 "Rectangle"] (* 22-33 *);
    Fn "Rectangle_SetLowerLeftX" [PHandle "RectangleHandle"; PValue "bigint_type"] [Check 0; Work; Use 0 "Rectangle"] (* 35-44 *);
    Fn "Rectangle_GetLowerLeftY" [PHandle "RectangleHandle"; PPointer "bigint_type*"] [Check 0; Check 1; Work; Touch 1; Use 0 "Rectangle"] (* 46-57 *);
    Fn "Rectangle_SetLowerLeftY" [PHandle "RectangleHandle"; PValue "bigint_type"] [Check 0; Work; Use 0 "Rectangle"] (* 59-68 *);
    Fn "Rectangle_GetUpperRightX" [PHandle "RectangleHandle"; PPointer "bigint_type*"] [Check 0; Check 1; Work; Touch 1; Use 0 "Rectangle"] (* 70-81 *);
    Fn "Rectangle_SetUpperRightX" [PHandle "RectangleHandle"; PValue "bigint_type"] [Check 0; Work; Use 0 "Rectangle"] (* 83-92 *);
    Fn "Rectangle_GetUpperRightY" [PHandle "RectangleHandle"; PPointer "bigint_type*"] [Check 0; Check 1; Work; Touch 1; Use 0 "Rectangle"] (* 94-105 *);
    Fn "Rectangle_SetUpperRightY" [PHandle "RectangleHandle"; PValue "bigint_type"] [Check 0; Work; Use 0 "Rectangle"] (* 107-116 *);
    Fn "Rectangle_ToUnknown" [PHandle "RectangleHandle"; PResult "IUnknownHandle"] [Check 0; Check 1; Convert 0 "Rectangle" 1 "IUnknownHandle" "IUnknown"] (* 118-120 *);
    Fn "Rectangle_FromUnknown" [PHandle "IUnknownHandle"; PResult "RectangleHandle"] [Check 0; Check 1; Convert 0 "IUnknown" 1 "RectangleHandle" "Rectangle"] (* 122-124 *);
    Fn "Rectangle_Release" [PHandle "RectangleHandle"] [Check 0; Drop 0 "Rectangle"] (* 126-128 *) ].

(** src/vanillapdf/implementation/semantics/c_resource_dictionary.cpp *)
Definition fns_c_resource_dictionary : list fn :=
  [ Fn "ResourceDictionary_GetFontMap" [PHandle "ResourceDictionaryHandle"; PResult "FontMapHandle"] [Check 0; Check 1; Work; Use 0 "ResourceDictionary"; Give 1 "FontMapHandle" "FontMap"] (* 10-25 *);
    Fn "ResourceDictionary_ToUnknown" [PHandle "ResourceDictionaryHandle"; PResult "IUnknownHandle"] [Check 0; Check 1; Convert 0 "ResourceDictionary" 1 "IUnknownHandle" "IUnknown"] (* 27-29 *);
    Fn "ResourceDictionary_FromUnknown" [PHandle "IUnknownHandle"; PResult "ResourceDictionaryHandle"] [Check 0; Check 1; Convert 0 "IUnknown" 1 "ResourceDictionaryHandle" "ResourceDictionary"] (* 31-33 *);
    Fn "ResourceDictionary_Release" [PHandle "ResourceDictionaryHandle"] [Check 0; Drop 0 "ResourceDictionary"] (* 35-37 *) ].

(** src/vanillapdf/implementation/semantics/c_viewer_preferences.cpp *)
Definition fns_c_viewer_preferences : list fn :=
  [ Fn "ViewerPreferences_GetHideToolbar" [PHandle "ViewerPreferencesHandle"; PResult "BooleanObjectHandle"] [Check 0; Check 1; Work; Use 0 "ViewerPreferences"; Give 1 "BooleanObjectHandle" "BooleanObject"] (* 11-26 *);
    Fn "ViewerPreferences_GetHideMenubar" [PHandle "ViewerPreferencesHandle"; PResult "BooleanObjectHandle"] [Check 0; Check 1; Work; Use 0 "ViewerPreferences"; Give 1 "BooleanObjectHandle" "BooleanObject"] (* 28-43 *);
    Fn "ViewerPreferences_GetHideWindowUI" [PHandle "ViewerPreferencesHandle"; PResult "BooleanObjectHandle"] [Check 0; Check 1; Work; Use 0 "ViewerPreferences"; Give 1 "BooleanObjectHandle" "BooleanObject"] (* 45-60 *);
    Fn "ViewerPreferences_GetFitWindow" [PHandle "ViewerPreferencesHandle"; PResult "BooleanObjectHandle"] [Check 0; Check 1; Work; Use 0 "ViewerPreferences"; Give 1 "BooleanObjectHandle" "BooleanObject"] (* 62-77 *);
    Fn "ViewerPreferences_GetCenterWindow" [PHandle "ViewerPreferencesHandle"; PResult "BooleanObjectHandle"] [Check 0; Check 1; Work; Use 0 "ViewerPreferences"; Give 1 "BooleanObjectHandle" "BooleanObject"] (* 79-94 *);
    Fn "ViewerPreferences_GetDisplayDocTitle" [PHandle "ViewerPreferencesHandle"; PResult "BooleanObjectHandle"] [Check 0; Check 1; Work; Use 0 "ViewerPreferences"; Give 1 "BooleanObjectHandle" "BooleanObject"] (* 96-111 *);
    Fn "ViewerPreferences_GetNonFullScreenPageMode" [PHandle "ViewerPreferencesHandle"; PPointer "NonFullScreenPageMode*"] [Check 0; Check 1; Work; Use 0 "ViewerPreferences"; Touch 1] (* 113-141 *);
    Fn "ViewerPreferences_GetDirection" [PHandle "ViewerPreferencesHandle"; PPointer "ReadingOrder*"] [Check 0; Check 1; Work; Use 0 "ViewerPreferences"; Touch 1] (* 143-167 *);
    Fn "ViewerPreferences_GetViewArea" [PHandle "ViewerPreferencesHandle"; PResult "NameObjectHandle"] [Check 0; Check 1; Work; Use 0 "ViewerPreferences"; Give 1 "NameObjectHandle" "NameObject"] (* 169-184 *);
    Fn "ViewerPreferences_GetViewClip" [PHandle "ViewerPreferencesHandle"; PResult "NameObjectHandle"] [Check 0; Check 1; Work; Use 0 "ViewerPreferences"; Give 1 "NameObjectHandle" "NameObject"] (* 186-201 *);
    Fn "ViewerPreferences_GetPrintArea" [PHandle "ViewerPreferencesHandle"; PResult "NameObjectHandle"] [Check 0; Check 1; Work; Use 0 "ViewerPreferences"; Give 1 "NameObjectHandle" "NameObject"] (* 203-218 *);
    Fn "ViewerPreferences_GetPrintClip" [PHandle "ViewerPreferencesHandle"; PResult "NameObjectHandle"] [Check 0; Check 1; Work; Use 0 "ViewerPreferences"; Give 1 "NameObjectHandle" "NameObject"] (* 220-235 *);
    Fn "ViewerPreferences_GetPrintScaling" [PHandle "ViewerPreferencesHandle"; PPointer "PrintScaling*"] [Check 0; Check 1; Work; Use 0 "ViewerPreferences"; Touch 1] (* 237-261 *);
    Fn "ViewerPreferences_GetDuplex" [PHandle "ViewerPreferencesHandle"; PPointer "Duplex*"] [Check 0; Check 1; Work; Use 0 "ViewerPreferences"; Touch 1] (* 263-289 *);
    Fn "ViewerPreferences_GetPickTrayByPDFSize" [PHandle "ViewerPreferencesHandle"; PResult "BooleanObjectHandle"] [Check 0; Check 1; Work; Use 0 "ViewerPreferences"; Give 1 "BooleanObjectHandle" "BooleanObject"] (* 291-306 *);
    Fn "ViewerPreferences_GetPrintPageRange" [PHandle "ViewerPreferencesHandle"; PResult "PageRangeHandle"] [Check 0; Check 1; Work; Use 0 "ViewerPreferences"; Give 1 "PageRangeHandle" "PageRange"] (* 308-323 *);
    Fn "ViewerPreferences_GetNumCopies" [PHandle "ViewerPreferencesHandle"; PResult "IntegerObjectHandle"] [Check 0; Check 1; Work; Use 0 "ViewerPreferences"; Give 1 "IntegerObjectHandle" "IntegerObject"] (* 325-340 *);
    Fn "ViewerPreferences_Release" [PHandle "ViewerPreferencesHandle"] [Check 0; Drop 0 "ViewerPreferences"] (* 342-345 *);
    Fn "PageRange_GetSize" [PHandle "PageRangeHandle"; PPointer "size_type*"] [Check 0; Check 1; Work; Touch 1; Use 0 "PageRange"] (* 347-358 *);
    Fn "PageRange_GetSubrange" [PHandle "PageRangeHandle"; PValue "size_type"; PResult "PageSubRangeHandle"] [Check 0; Check 2; Work; Use 0 "PageRange"; Give 2 "PageSubRangeHandle" "PageRange::SubRange"] (* 360-373 *);
    Fn "PageSubRange_GetFirstPage" [PHandle "PageSubRangeHandle"; PResult "IntegerObjectHandle"] [Check 0; Check 1; Work; Use 0 "PageRange::SubRange"; Give 1 "IntegerObjectHandle" "IntegerObject"] (* 375-388 *);
    Fn "PageSubRange_GetLastPage" [PHandle "PageSubRangeHandle"; PResult "IntegerObjectHandle"] [Check 0; Check 1; Work; Use 0 "PageRange::SubRange"; Give 1 "IntegerObjectHandle" "IntegerObject"] (* 390-403 *);
    Fn "PageSubRange_Release" [PHandle "PageSubRangeHandle"] [Check 0; Drop 0 "PageRange::SubRange"] (* 405-408 *);
    Fn "PageRange_Release" [PHandle "PageRangeHandle"] [Check 0; Drop 0 "PageRange"] (* 410-413 *) ].

(** src/vanillapdf/implementation/syntax/c_array_object.cpp *)
Definition fns_c_array_object : list fn :=
  [ Fn "ArrayObject_Create" [PResult "ArrayObjectHandle"] [Check 0; Work; Give 0 "ArrayObjectHandle" "MixedArrayObject"] (* 11-20 *);
    Fn "ArrayObject_GetValue" [PHandle "ArrayObjectHandle"; PValue "size_type"; PResult "ObjectHandle"] [Check 0; Check 2; Work; Use 0 "MixedArrayObject"; Give 2 "ObjectHandle" "Object"] (* 22-36 *);
    Fn "ArrayObject_SetValue" [PHandle "ArrayObjectHandle"; PValue "size_type"; PHandle "ObjectHandle"] [Check 0; Check 2; Work; Use 2 "Object"; Use 0 "MixedArrayObject"] (* 38-53 *);
    Fn "ArrayObject_GetSize" [PHandle "ArrayObjectHandle"; PPointer "size_type*"] [Check 0; Check 1; Touch 1; Use 0 "MixedArrayObject"] (* 55-63 *);
    Fn "ArrayObject_Append" [PHandle "ArrayObjectHandle"; PHandle "ObjectHandle"] [Check 0; Check 1; Work; Use 1 "Object"; Use 0 "MixedArrayObject"] (* 65-82 *);
    Fn "ArrayObject_Insert" [PHandle "ArrayObjectHandle"; PValue "size_type"; PHandle "ObjectHandle"] [Check 0; Check 2; Work; Use 2 "Object"; Use 0 "MixedArrayObject"] (* 84-101 *);
    Fn "ArrayObject_Remove" [PHandle "ArrayObjectHandle"; PValue "size_type"] [Check 0; Work; Use 0 "MixedArrayObject"] (* 103-117 *);
    Fn "ArrayObject_Clear" [PHandle "ArrayObjectHandle"] [Check 0; Work; Use 0 "MixedArrayObject"] (* 119-127 *);
    Fn "ArrayObject_ToObject" [PHandle "ArrayObjectHandle"; PResult "ObjectHandle"] [Check 0; Check 1; Convert 0 "MixedArrayObject" 1 "ObjectHandle" "Object"] (* 129-131 *);
    Fn "ArrayObject_FromObject" [PHandle "ObjectHandle"; PResult "ArrayObjectHandle"] [Check 0; Check 1; Convert 0 "Object" 1 "ArrayObjectHandle" "MixedArrayObject"] (* 133-135 *);
    Fn "ArrayObject_Release" [PHandle "ArrayObjectHandle"] [Check 0; Drop 0 "MixedArrayObject"] (* 137-140 *) ].

(** src/vanillapdf/implementation/syntax/c_boolean_object.cpp *)
Definition fns_c_boolean_object : list fn :=
  [ Fn "BooleanObject_Create" [PResult "BooleanObjectHandle"] [Check 0; Work; Give 0 "BooleanObjectHandle" "BooleanObject"] (* 11-20 *);
    Fn "BooleanObject_GetValue" [PHandle "BooleanObjectHandle"; PPointer "boolean_type*"] [Check 0; Check 1; Touch 1; Use 0 "BooleanObject"] (* 22-30 *);
    Fn "BooleanObject_SetValue" [PHandle "BooleanObjectHandle"; PValue "boolean_type"] [Check 0; Use 0 "BooleanObject"] (* 32-45 *);
    Fn "BooleanObject_ToObject" [PHandle "BooleanObjectHandle"; PResult "ObjectHandle"] [Check 0; Check 1; Convert 0 "BooleanObject" 1 "ObjectHandle" "Object"] (* 47-49 *);
    Fn "BooleanObject_FromObject" [PHandle "ObjectHandle"; PResult "BooleanObjectHandle"] [Check 0; Check 1; Convert 0 "Object" 1 "BooleanObjectHandle" "BooleanObject"] (* 51-53 *);
    Fn "BooleanObject_Release" [PHandle "BooleanObjectHandle"] [Check 0; Drop 0 "BooleanObject"] (* 55-58 *) ].

(** src/vanillapdf/implementation/syntax/c_dictionary_object.cpp *)
Definition fns_c_dictionary_object : list fn :=
  [ Fn "DictionaryObject_Create" [PResult "DictionaryObjectHandle"] [Check 0; Work; Give 0 "DictionaryObjectHandle" "Object"] (* 11-21 *);
    Fn "DictionaryObject_GetSize" [PHandle "DictionaryObjectHandle"; PPointer "size_type*"] [Check 0; Check 1; Touch 1; Use 0 "DictionaryObject"] (* 23-30 *);
    Fn "DictionaryObject_Find" [PHandle "DictionaryObjectHandle"; PHandle "NameObjectHandle"; PResult "ObjectHandle"] [Check 0; Check 1; Check 2; Work; Use 0 "DictionaryObject"; Use 1 "NameObject"; Give 2 "ObjectHandle" "Object"] (* 32-48 *);
    Fn "DictionaryObject_TryFind" [PHandle "DictionaryObjectHandle"; PHandle "NameObjectHandle"; PPointer "boolean_type*"; PResult "ObjectHandle"] [Check 0; Check 1; Check 2; Check 3; Work; Use 0 "DictionaryObject"; Use 1 "NameObject"; Touch 2; Give 3 "ObjectHandle" "Object"] (* 50-79 *);
    Fn "DictionaryObject_GetIterator" [PHandle "DictionaryObjectHandle"; PResult "DictionaryObjectIteratorHandle"] [Check 0; Check 1; Work; Use 0 "DictionaryObject"; Give 1 "DictionaryObjectIteratorHandle" "DictionaryObject::Iterator"] (* 81-94 *);
    Fn "DictionaryObjectIterator_Next" [PHandle "DictionaryObjectIteratorHandle"] [Check 0; Work; Use 0 "DictionaryObject::Iterator"] (* 96-107 *);
    Fn "DictionaryObjectIterator_ToUnknown" [PHandle "DictionaryObjectIteratorHandle"; PResult "IUnknownHandle"] [Check 0; Check 1; Convert 0 "DictionaryObject::Iterator" 1 "IUnknownHandle" "IUnknown"] (* 109-111 *);
    Fn "DictionaryObjectIterator_FromUnknown" [PHandle "IUnknownHandle"; PResult "DictionaryObjectIteratorHandle"] [Check 0; Check 1; Convert 0 "IUnknown" 1 "DictionaryObjectIteratorHandle" "DictionaryObject::Iterator"] (* 113-115 *);
    Fn "DictionaryObjectIterator_Release" [PHandle "DictionaryObjectIteratorHandle"] [Check 0; Drop 0 "DictionaryObject::Iterator"] (* 117-121 *);
    Fn "DictionaryObjectIterator_GetKey" [PHandle "DictionaryObjectIteratorHandle"; PResult "NameObjectHandle"] [Check 0; Check 1; Work; Use 0 "DictionaryObject::Iterator"; Give 1 "NameObjectHandle" "NameObject"] (* 123-138 *);
    Fn "DictionaryObjectIterator_GetValue" [PHandle "DictionaryObjectIteratorHandle"; PResult "ObjectHandle"] [Check 0; Check 1; Work; Use 0 "DictionaryObject::Iterator"; Give 1 "ObjectHandle" "Object"] (* 140-156 *);
    Fn "DictionaryObjectIterator_IsValid" [PHandle "DictionaryObjectIteratorHandle"; PPointer "boolean_type*"] [Check 0; Check 1; Work; Use 0 "DictionaryObject::Iterator"; Touch 1] (* 158-175 *);
    Fn "DictionaryObject_Remove" [PHandle "DictionaryObjectHandle"; PHandle "NameObjectHandle"; PPointer "boolean_type*"] [Check 0; Check 1; Work; Touch 2; Use 0 "DictionaryObject"; Use 1 "NameObject"] (* 177-189 *);
    Fn "DictionaryObject_Clear" [PHandle "DictionaryObjectHandle"] [Check 0; Work; Use 0 "DictionaryObject"] (* 191-199 *);
    Fn "DictionaryObject_Insert" [PHandle "DictionaryObjectHandle"; PHandle "NameObjectHandle"; PHandle "ObjectHandle"; PValue "boolean_type"] [Check 0; Check 1; Check 2; Work; Use 2 "Object"; Use 0 "DictionaryObject"; Use 1 "NameObject"] (* 201-220 *);
    Fn "DictionaryObject_InsertConst" [PHandle "DictionaryObjectHandle"; PHandle "NameObjectHandle"; PHandle "ObjectHandle"; PValue "boolean_type"] [Check 0; Check 1; Check 2; Work; Use 2 "Object"; Use 0 "DictionaryObject"; Use 1 "NameObject"] (* 222-239 *);
    Fn "DictionaryObject_Contains" [PHandle "DictionaryObjectHandle"; PHandle "NameObjectHandle"; PPointer "boolean_type*"] [Check 0; Check 1; Check 2; Work; Touch 2; Use 0 "DictionaryObject"; Use 1 "NameObject"] (* 241-254 *);
    Fn "DictionaryObject_ToObject" [PHandle "DictionaryObjectHandle"; PResult "ObjectHandle"] [Check 0; Check 1; Convert 0 "DictionaryObject" 1 "ObjectHandle" "Object"] (* 256-258 *);
    Fn "DictionaryObject_FromObject" [PHandle "ObjectHandle"; PResult "DictionaryObjectHandle"] [Check 0; Check 1; Convert 0 "Object" 1 "DictionaryObjectHandle" "DictionaryObject"] (* 260-262 *);
    Fn "DictionaryObject_Release" [PHandle "DictionaryObjectHandle"] [Check 0; Drop 0 "DictionaryObject"] (* 264-267 *) ].

(** src/vanillapdf/implementation/syntax/c_file.cpp *)
Definition fns_c_file : list fn :=
  [ Fn "File_Open" [PPointer "string_type"; PResult "FileHandle"] [Check 0; Check 1; Work; Touch 0; Give 1 "FileHandle" "File"] (* 12-24 *);
    Fn "File_OpenStream" [PHandle "InputOutputStreamHandle"; PPointer "string_type"; PResult "FileHandle"] [Check 0; Check 1; Check 2; Work; Use 0 "IInputOutputStream"; Touch 1; Give 2 "FileHandle" "File"] (* 26-39 *);
    Fn "File_Create" [PPointer "string_type"; PResult "FileHandle"] [Check 0; Check 1; Work; Touch 0; Give 1 "FileHandle" "File"] (* 41-53 *);
    Fn "File_CreateStream" [PHandle "InputOutputStreamHandle"; PPointer "string_type"; PResult "FileHandle"] [Check 0; Check 1; Check 2; Work; Use 0 "IInputOutputStream"; Touch 1; Give 2 "FileHandle" "File"] (* 55-68 *);
    Fn "File_Initialize" [PHandle "FileHandle"] [Check 0; Work; Use 0 "File"] (* 70-80 *);
    Fn "File_GetVersion" [PHandle "FileHandle"; PPointer "PDFVersion*"] [Check 0; Check 1; Work; Use 0 "File"; Touch 1] (* 82-118 *);
    Fn "File_GetFilename" [PHandle "FileHandle"; PResult "BufferHandle"] [Check 0; Check 1; Work; Use 0 "File"; Give 1 "BufferHandle" "Buffer"] (* 120-133 *);
    Fn "File_XrefChain" [PHandle "FileHandle"; PResult "XrefChainHandle"] [Check 0; Check 1; Work; Use 0 "File"; Give 1 "XrefChainHandle" "XrefChain"] (* 135-148 *);
    Fn "File_GetIndirectObject" [PHandle "FileHandle"; PValue "biguint_type"; PValue "ushort_type"; PResult "ObjectHandle"] [Check 0; Check 3; Work; Use 0 "File"; Give 3 "ObjectHandle" "Object"] (* 150-165 *);
    Fn "File_AllocateNewEntry" [PHandle "FileHandle"; PResult "XrefUsedEntryHandle"] [Check 0; Check 1; Work; Use 0 "File"; Give 1 "XrefUsedEntryHandle" "XrefUsedEntryBase"] (* 167-180 *);
    Fn "File_Release" [PHandle "FileHandle"] [Check 0; Drop 0 "File"] (* 182-189 *);
    Fn "File_IsEncrypted" [PHandle "FileHandle"; PPointer "boolean_type*"] [Check 0; Check 1; Work; Touch 1; Use 0 "File"] (* 191-203 *);
    Fn "File_SetEncryptionPassword" [PHandle "FileHandle"; PPointer "string_type"] [Check 0; Work; TouchSome 1; Use 0 "File"] (* 205-226 *);
    Fn "File_SetEncryptionKey" [PHandle "FileHandle"; PHandle "EncryptionKeyHandle"] [Check 0; Check 1; Work; Use 0 "File"; Use 1 "IEncryptionKey"] (* 228-246 *);
    Fn "File_ToUnknown" [PHandle "FileHandle"; PResult "IUnknownHandle"] [Check 0; Check 1; Convert 0 "File" 1 "IUnknownHandle" "IUnknown"] (* 248-250 *);
    Fn "File_FromUnknown" [PHandle "IUnknownHandle"; PResult "FileHandle"] [Check 0; Check 1; Convert 0 "IUnknown" 1 "FileHandle" "File"] (* 252-254 *) ].

(** src/vanillapdf/implementation/syntax/c_file_writer.cpp *)
Definition fns_c_file_writer : list fn :=
  [ Fn "FileWriter_Create" [PResult "FileWriterHandle"] [Check 0; Work; Give 0 "FileWriterHandle" "FileWriter"] (* 11-20 *);
    Fn "FileWriter_Write" [PHandle "FileWriterHandle"; PHandle "FileHandle"; PHandle "FileHandle"] [Check 0; Check 1; Check 2; Work; Use 0 "FileWriter"; Use 1 "File"; Use 2 "File"] (* 22-35 *);
    Fn "FileWriter_WriteIncremental" [PHandle "FileWriterHandle"; PHandle "FileHandle"; PHandle "FileHandle"] [Check 0; Check 1; Check 2; Work; Use 0 "FileWriter"; Use 1 "File"; Use 2 "File"] (* 37-49 *);
    Fn "FileWriter_Subscribe" [PHandle "FileWriterHandle"; PHandle "FileWriterObserverHandle"] [Check 0; Check 1; Work; Use 0 "FileWriter"; Use 1 "IFileWriterObserver"] (* 51-61 *);
    Fn "FileWriter_Unsubscribe" [PHandle "FileWriterHandle"; PHandle "FileWriterObserverHandle"] [Check 0; Check 1; Work; Use 0 "FileWriter"; Use 1 "IFileWriterObserver"] (* 63-73 *);
    Fn "FileWriter_ToUnknown" [PHandle "FileWriterHandle"; PResult "IUnknownHandle"] [Check 0; Check 1; Convert 0 "FileWriter" 1 "IUnknownHandle" "IUnknown"] (* 75-77 *);
    Fn "FileWriter_FromUnknown" [PHandle "IUnknownHandle"; PResult "FileWriterHandle"] [Check 0; Check 1; Convert 0 "IUnknown" 1 "FileWriterHandle" "FileWriter"] (* 79-81 *);
    Fn "FileWriter_Release" [PHandle "FileWriterHandle"] [Check 0; Drop 0 "FileWriter"] (* 83-85 *) ].

(** src/vanillapdf/implementation/syntax/c_file_writer_observer.cpp *)
Definition fns_c_file_writer_observer : list fn :=
  [ Fn "FileWriterObserver_CreateCustom" [PPointer "FileWriterObserver_OnInitializing_Function"; PPointer "FileWriterObserver_OnFinalizing_Function"; PPointer "FileWriterObserver_OnBeforeObjectWrite_Function"; PPointer "FileWriterObserver_OnAfterObjectWrite_Function"; PPointer "FileWriterObserver_OnBeforeObjectOffsetRecalculation_Function"; PPointer "FileWriterObserver_OnAfterObjectOffsetRecalculation_Function"; PPointer "FileWriterObserver_OnBeforeEntryOffsetRecalculation_Function"; PPointer "FileWriterObserver_OnAfterEntryOffsetRecalculation_Function"; PPointer "FileWriterObserver_OnBeforeOutputFlush_Function"; PPointer "FileWriterObserver_OnAfterOutputFlush_Function"; PPointer "void*"; PResult "FileWriterObserverHandle"] [Check 11; Work; Give 11 "FileWriterObserverHandle" "IFileWriterObserver"] (* 210-237 *);
    Fn "FileWriterObserver_ToUnknown" [PHandle "FileWriterObserverHandle"; PResult "IUnknownHandle"] [Check 0; Check 1; Convert 0 "IFileWriterObserver" 1 "IUnknownHandle" "IUnknown"] (* 239-241 *);
    Fn "FileWriterObserver_FromUnknown" [PHandle "IUnknownHandle"; PResult "FileWriterObserverHandle"] [Check 0; Check 1; Convert 0 "IUnknown" 1 "FileWriterObserverHandle" "IFileWriterObserver"] (* 243-245 *);
    Fn "FileWriterObserver_Release" [PHandle "FileWriterObserverHandle"] [Check 0; Drop 0 "IFileWriterObserver"] (* 247-249 *) ].

(** src/vanillapdf/implementation/syntax/c_filter.cpp *)
Definition fns_c_filter : list fn :=
  [ Fn "FilterBase_Encode" [PHandle "FilterBaseHandle"; PHandle "BufferHandle"; PResult "BufferHandle"] [Check 0; Check 1; Check 2; Work; Use 0 "FilterBase"; Use 1 "Buffer"; Give 2 "BufferHandle" "Buffer"] (* 19-33 *);
    Fn "FilterBase_EncodeParams" [PHandle "FilterBaseHandle"; PHandle "BufferHandle"; PHandle "DictionaryObjectHandle"; PResult "BufferHandle"] [Check 0; Check 2; Check 1; Check 3; Work; Use 0 "FilterBase"; Use 1 "Buffer"; Use 2 "DictionaryObject"; Give 3 "BufferHandle" "Buffer"] (* 35-51 *);
    Fn "FilterBase_Decode" [PHandle "FilterBaseHandle"; PHandle "BufferHandle"; PResult "BufferHandle"] [Check 0; Check 1; Check 2; Work; Use 0 "FlateDecodeFilter"; Use 1 "Buffer"; Give 2 "BufferHandle" "Buffer"] (* 53-67 *);
    Fn "FilterBase_Release" [PHandle "FilterBaseHandle"] [Check 0; Drop 0 "FilterBase"] (* 69-71 *);
    Fn "FlateDecodeFilter_Create" [PResult "FlateDecodeFilterHandle"] [Check 0; Work; Give 0 "FlateDecodeFilterHandle" "FlateDecodeFilter"] (* 75-85 *);
    Fn "FlateDecodeFilter_Encode" [PHandle "FlateDecodeFilterHandle"; PHandle "BufferHandle"; PResult "BufferHandle"] [Upcast 0 "FlateDecodeFilter" "FilterBase"; Check 0; Check 1; Check 2; Work; Use 0 "FilterBase"; Use 1 "Buffer"; Give 2 "BufferHandle" "Buffer"] (* 87-93 *);
    Fn "FlateDecodeFilter_EncodeParams" [PHandle "FlateDecodeFilterHandle"; PHandle "BufferHandle"; PHandle "DictionaryObjectHandle"; PResult "BufferHandle"] [Upcast 0 "FlateDecodeFilter" "FilterBase"; Check 0; Check 2; Check 1; Check 3; Work; Use 0 "FilterBase"; Use 1 "Buffer"; Use 2 "DictionaryObject"; Give 3 "BufferHandle" "Buffer"] (* 95-101 *);
    Fn "FlateDecodeFilter_Decode" [PHandle "FlateDecodeFilterHandle"; PHandle "BufferHandle"; PResult "BufferHandle"] [Upcast 0 "FlateDecodeFilter" "FilterBase"; Check 0; Check 1; Check 2; Work; Use 0 "FlateDecodeFilter"; Use 1 "Buffer"; Give 2 "BufferHandle" "Buffer"] (* 103-109 *);
    Fn "FlateDecodeFilter_Release" [PHandle "FlateDecodeFilterHandle"] [Check 0; Drop 0 "FlateDecodeFilter"] (* 111-113 *);
    Fn "DCTDecodeFilter_Create" [PResult "DCTDecodeFilterHandle"] [Check 0; Work; Give 0 "DCTDecodeFilterHandle" "DCTDecodeFilter"] (* 117-127 *);
    Fn "DCTDecodeFilter_Encode" [PHandle "DCTDecodeFilterHandle"; PHandle "BufferHandle"; PResult "BufferHandle"] [Upcast 0 "DCTDecodeFilter" "FilterBase"; Check 0; Check 1; Check 2; Work; Use 0 "FilterBase"; Use 1 "Buffer"; Give 2 "BufferHandle" "Buffer"] (* 129-135 *);
    Fn "DCTDecodeFilter_EncodeParams" [PHandle "DCTDecodeFilterHandle"; PHandle "BufferHandle"; PHandle "DictionaryObjectHandle"; PResult "BufferHandle"] [Upcast 0 "DCTDecodeFilter" "FilterBase"; Check 0; Check 2; Check 1; Check 3; Work; Use 0 "FilterBase"; Use 1 "Buffer"; Use 2 "DictionaryObject"; Give 3 "BufferHandle" "Buffer"] (* 137-143 *);
    Fn "DCTDecodeFilter_Decode" [PHandle "DCTDecodeFilterHandle"; PHandle "BufferHandle"; PResult "BufferHandle"] [Upcast 0 "DCTDecodeFilter" "FilterBase"; Check 0; Check 1; Check 2; Work; Use 0 "FlateDecodeFilter"; Use 1 "Buffer"; Give 2 "BufferHandle" "Buffer"] (* 145-151 *);
    Fn "DCTDecodeFilter_Release" [PHandle "DCTDecodeFilterHandle"] [Check 0; Drop 0 "DCTDecodeFilter"] (* 153-155 *);
    Fn "ASCII85DecodeFilter_Create" [PResult "ASCII85DecodeFilterHandle"] [Check 0; Work; Give 0 "ASCII85DecodeFilterHandle" "ASCII85DecodeFilter"] (* 159-169 *);
    Fn "ASCII85DecodeFilter_Encode" [PHandle "ASCII85DecodeFilterHandle"; PHandle "BufferHandle"; PResult "BufferHandle"] [Upcast 0 "ASCII85DecodeFilter" "FilterBase"; Check 0; Check 1; Check 2; Work; Use 0 "FilterBase"; Use 1 "Buffer"; Give 2 "BufferHandle" "Buffer"] (* 171-177 *);
    Fn "ASCII85DecodeFilter_EncodeParams" [PHandle "ASCII85DecodeFilterHandle"; PHandle "BufferHandle"; PHandle "DictionaryObjectHandle"; PResult "BufferHandle"] [Upcast 0 "ASCII85DecodeFilter" "FilterBase"; Check 0; Check 2; Check 1; Check 3; Work; Use 0 "FilterBase"; Use 1 "Buffer"; Use 2 "DictionaryObject"; Give 3 "BufferHandle" "Buffer"] (* 179-185 *);
    Fn "ASCII85DecodeFilter_Decode" [PHandle "ASCII85DecodeFilterHandle"; PHandle "BufferHandle"; PResult "BufferHandle"] [Upcast 0 "ASCII85DecodeFilter" "FilterBase"; Check 0; Check 1; Check 2; Work; Use 0 "FlateDecodeFilter"; Use 1 "Buffer"; Give 2 "BufferHandle" "Buffer"] (* 187-193 *);
    Fn "ASCII85DecodeFilter_Release" [PHandle "ASCII85DecodeFilterHandle"] [Check 0; Drop 0 "ASCII85DecodeFilter"] (* 195-197 *);
    Fn "ASCIIHexDecodeFilter_Create" [PResult "ASCIIHexDecodeFilterHandle"] [Check 0; Work; Give 0 "ASCIIHexDecodeFilterHandle" "ASCIIHexDecodeFilter"] (* 201-211 *);
    Fn "ASCIIHexDecodeFilter_Encode" [PHandle "ASCIIHexDecodeFilterHandle"; PHandle "BufferHandle"; PResult "BufferHandle"] [Upcast 0 "ASCIIHexDecodeFilter" "FilterBase"; Check 0; Check 1; Check 2; Work; Use 0 "FilterBase"; Use 1 "Buffer"; Give 2 "BufferHandle" "Buffer"] (* 213-219 *);
    Fn "ASCIIHexDecodeFilter_EncodeParams" [PHandle "ASCIIHexDecodeFilterHandle"; PHandle "BufferHandle"; PHandle "DictionaryObjectHandle"; PResult "BufferHandle"] [Upcast 0 "ASCIIHexDecodeFilter" "FilterBase"; Check 0; Check 2; Check 1; Check 3; Work; Use 0 "FilterBase"; Use 1 "Buffer"; Use 2 "DictionaryObject"; Give 3 "BufferHandle" "Buffer"] (* 221-227 *);
    Fn "ASCIIHexDecodeFilter_Decode" [PHandle "ASCIIHexDecodeFilterHandle"; PHandle "BufferHandle"; PResult "BufferHandle"] [Upcast 0 "ASCIIHexDecodeFilter" "FilterBase"; Check 0; Check 1; Check 2; Work; Use 0 "FlateDecodeFilter"; Use 1 "Buffer"; Give 2 "BufferHandle" "Buffer"] (* 229-235 *);
    Fn "ASCIIHexDecodeFilter_Release" [PHandle "ASCIIHexDecodeFilterHandle"] [Check 0; Drop 0 "ASCIIHexDecodeFilter"] (* 237-239 *);
    Fn "LZWDecodeFilter_Create" [PResult "LZWDecodeFilterHandle"] [Check 0; Work; Give 0 "LZWDecodeFilterHandle" "LZWDecodeFilter"] (* 243-253 *);
    Fn "LZWDecodeFilter_Encode" [PHandle "LZWDecodeFilterHandle"; PHandle "BufferHandle"; PResult "BufferHandle"] [Upcast 0 "LZWDecodeFilter" "FilterBase"; Check 0; Check 1; Check 2; Work; Use 0 "FilterBase"; Use 1 "Buffer"; Give 2 "BufferHandle" "Buffer"] (* 255-261 *);
    Fn "LZWDecodeFilter_EncodeParams" [PHandle "LZWDecodeFilterHandle"; PHandle "BufferHandle"; PHandle "DictionaryObjectHandle"; PResult "BufferHandle"] [Upcast 0 "LZWDecodeFilter" "FilterBase"; Check 0; Check 2; Check 1; Check 3; Work; Use 0 "FilterBase"; Use 1 "Buffer"; Use 2 "DictionaryObject"; Give 3 "BufferHandle" "Buffer"] (* 263-269 *);
    Fn "LZWDecodeFilter_Decode" [PHandle "LZWDecodeFilterHandle"; PHandle "BufferHandle"; PResult "BufferHandle"] [Upcast 0 "LZWDecodeFilter" "FilterBase"; Check 0; Check 1; Check 2; Work; Use 0 "FlateDecodeFilter"; Use 1 "Buffer"; Give 2 "BufferHandle" "Buffer"] (* 271-277 *);
    Fn "LZWDecodeFilter_Release" [PHandle "LZWDecodeFilterHandle"] [Check 0; Drop 0 "LZWDecodeFilter"] (* 279-281 *);
    Fn "JPXDecodeFilter_Create" [PResult "JPXDecodeFilterHandle"] [Check 0; Work; Give 0 "JPXDecodeFilterHandle" "JPXDecodeFilter"] (* 285-295 *);
    Fn "JPXDecodeFilter_Encode" [PHandle "JPXDecodeFilterHandle"; PHandle "BufferHandle"; PResult "BufferHandle"] [Upcast 0 "JPXDecodeFilter" "FilterBase"; Check 0; Check 1; Check 2; Work; Use 0 "FilterBase"; Use 1 "Buffer"; Give 2 "BufferHandle" "Buffer"] (* 297-303 *);
    Fn "JPXDecodeFilter_EncodeParams" [PHandle "JPXDecodeFilterHandle"; PHandle "BufferHandle"; PHandle "DictionaryObjectHandle"; PResult "BufferHandle"] [Upcast 0 "JPXDecodeFilter" "FilterBase"; Check 0; Check 2; Check 1; Check 3; Work; Use 0 "FilterBase"; Use 1 "Buffer"; Use 2 "DictionaryObject"; Give 3 "BufferHandle" "Buffer"] (* 305-311 *);
    Fn "JPXDecodeFilter_Decode" [PHandle "JPXDecodeFilterHandle"; PHandle "BufferHandle"; PResult "BufferHandle"] [Upcast 0 "JPXDecodeFilter" "FilterBase"; Check 0; Check 1; Check 2; Work; Use 0 "FlateDecodeFilter"; Use 1 "Buffer"; Give 2 "BufferHandle" "Buffer"] (* 313-319 *);
    Fn "JPXDecodeFilter_Release" [PHandle "JPXDecodeFilterHandle"] [Check 0; Drop 0 "JPXDecodeFilter"] (* 321-323 *) ].

(** src/vanillapdf/implementation/syntax/c_indirect_reference_object.cpp *)
Definition fns_c_indirect_reference_object : list fn :=
  [ Fn "IndirectReferenceObject_Create" [PResult "IndirectReferenceObjectHandle"] [Check 0; Work; Give 0 "IndirectReferenceObjectHandle" "IndirectReferenceObject"] (* 11-20 *);
    Fn "IndirectReferenceObject_GetReferencedObject" [PHandle "IndirectReferenceObjectHandle"; PResult "ObjectHandle"] [Check 0; Check 1; Work; Use 0 "IndirectReferenceObject"; Give 1 "ObjectHandle" "Object"] (* 22-35 *);
    Fn "IndirectReferenceObject_SetReferencedObject" [PHandle "IndirectReferenceObjectHandle"; PHandle "ObjectHandle"] [Check 0; Check 1; Work; Use 0 "IndirectReferenceObject"; Use 1 "Object"] (* 37-47 *);
    Fn "IndirectReferenceObject_GetReferencedObjectNumber" [PHandle "IndirectReferenceObjectHandle"; PPointer "biguint_type*"] [Check 0; Check 1; Touch 1; Use 0 "IndirectReferenceObject"] (* 49-57 *);
    Fn "IndirectReferenceObject_GetReferencedGenerationNumber" [PHandle "IndirectReferenceObjectHandle"; PPointer "ushort_type*"] [Check 0; Check 1; Touch 1; Use 0 "IndirectReferenceObject"] (* 59-67 *);
    Fn "IndirectReferenceObject_ToObject" [PHandle "IndirectReferenceObjectHandle"; PResult "ObjectHandle"] [Check 0; Check 1; Convert 0 "IndirectReferenceObject" 1 "ObjectHandle" "Object"] (* 69-71 *);
    Fn "IndirectReferenceObject_FromObject" [PHandle "ObjectHandle"; PResult "IndirectReferenceObjectHandle"] [Check 0; Check 1; Convert 0 "Object" 1 "IndirectReferenceObjectHandle" "IndirectReferenceObject"] (* 73-75 *);
    Fn "IndirectReferenceObject_Release" [PHandle "IndirectReferenceObjectHandle"] [Check 0; Drop 0 "IndirectReferenceObject"] (* 77-79 *) ].

(** src/vanillapdf/implementation/syntax/c_integer_object.cpp *)
Definition fns_c_integer_object : list fn :=
  [ Fn "IntegerObject_Create" [PResult "IntegerObjectHandle"] [Check 0; Work; Give 0 "IntegerObjectHandle" "IntegerObject"] (* 11-20 *);
    Fn "IntegerObject_GetIntegerValue" [PHandle "IntegerObjectHandle"; PPointer "bigint_type*"] [Check 0; Check 1; Work; Touch 1; Use 0 "IntegerObject"] (* 22-33 *);
    Fn "IntegerObject_GetUnsignedIntegerValue" [PHandle "IntegerObjectHandle"; PPointer "biguint_type*"] [Check 0; Check 1; Work; Touch 1; Use 0 "IntegerObject"] (* 35-46 *);
    Fn "IntegerObject_SetIntegerValue" [PHandle "IntegerObjectHandle"; PValue "bigint_type"] [Check 0; Work; Use 0 "IntegerObject"] (* 48-58 *);
    Fn "IntegerObject_SetUnsignedIntegerValue" [PHandle "IntegerObjectHandle"; PValue "biguint_type"] [Check 0; Work; Use 0 "IntegerObject"] (* 60-70 *);
    Fn "IntegerObject_ToObject" [PHandle "IntegerObjectHandle"; PResult "ObjectHandle"] [Check 0; Check 1; Convert 0 "IntegerObject" 1 "ObjectHandle" "Object"] (* 72-74 *);
    Fn "IntegerObject_FromObject" [PHandle "ObjectHandle"; PResult "IntegerObjectHandle"] [Check 0; Check 1; Work; Use 0 "Object"; Give 1 "IntegerObjectHandle" "IntegerObject"] (* 76-94 *);
    Fn "IntegerObject_Release" [PHandle "IntegerObjectHandle"] [Check 0; Drop 0 "IntegerObject"] (* 96-99 *) ].

(** src/vanillapdf/implementation/syntax/c_name_object.cpp *)
Definition fns_c_name_object : list fn :=
  [ Fn "NameObject_Create" [PResult "NameObjectHandle"] [Check 0; Work; Give 0 "NameObjectHandle" "NameObject"] (* 11-20 *);
    Fn "NameObject_CreateFromEncodedString" [PPointer "string_type"; PResult "NameObjectHandle"] [Check 0; Check 1; Work; Touch 0; Give 1 "NameObjectHandle" "NameObject"] (* 22-32 *);
    Fn "NameObject_CreateFromDecodedString" [PPointer "string_type"; PResult "NameObjectHandle"] [Check 0; Check 1; Work; Touch 0; Give 1 "NameObjectHandle" "NameObject"] (* 34-44 *);
    Fn "NameObject_GetValue" [PHandle "NameObjectHandle"; PResult "BufferHandle"] [Check 0; Check 1; Work; Use 0 "NameObject"; Give 1 "BufferHandle" "Buffer"] (* 46-59 *);
    Fn "NameObject_SetValue" [PHandle "NameObjectHandle"; PHandle "BufferHandle"] [Check 0; Check 1; Work; Use 0 "NameObject"; Use 1 "Buffer"] (* 61-73 *);
    Fn "NameObject_Equals" [PHandle "NameObjectHandle"; PHandle "NameObjectHandle"; PPointer "boolean_type*"] [Check 0; Check 1; Check 2; Work; Touch 2; Use 0 "NameObject"; Use 1 "NameObject"] (* 75-87 *);
    Fn "NameObject_Hash" [PHandle "NameObjectHandle"; PPointer "size_type*"] [Check 0; Check 1; Work; Touch 1; Use 0 "NameObject"] (* 89-99 *);
    Fn "NameObject_ToObject" [PHandle "NameObjectHandle"; PResult "ObjectHandle"] [Check 0; Check 1; Convert 0 "NameObject" 1 "ObjectHandle" "Object"] (* 101-103 *);
    Fn "NameObject_FromObject" [PHandle "ObjectHandle"; PResult "NameObjectHandle"] [Check 0; Check 1; Convert 0 "Object" 1 "NameObjectHandle" "NameObject"] (* 105-107 *);
    Fn "NameObject_Release" [PHandle "NameObjectHandle"] [Check 0; Drop 0 "NameObject"] (* 109-112 *) ].

(** src/vanillapdf/implementation/syntax/c_null_object.cpp *)
Definition fns_c_null_object : list fn :=
  [ Fn "NullObject_Create" [PResult "NullObjectHandle"] [Check 0; Work; Give 0 "NullObjectHandle" "NullObject"] (* 11-20 *);
    Fn "NullObject_ToObject" [PHandle "NullObjectHandle"; PResult "ObjectHandle"] [Check 0; Check 1; Convert 0 "NullObject" 1 "ObjectHandle" "Object"] (* 22-24 *);
    Fn "NullObject_FromObject" [PHandle "ObjectHandle"; PResult "NullObjectHandle"] [Check 0; Check 1; Convert 0 "Object" 1 "NullObjectHandle" "NullObject"] (* 26-28 *);
    Fn "NullObject_Release" [PHandle "NullObjectHandle"] [Check 0; Drop 0 "NullObject"] (* 30-33 *) ].

(** src/vanillapdf/implementation/syntax/c_object.cpp *)
Definition fns_c_object : list fn :=
  [ Fn "Object_GetObjectType" [PHandle "ObjectHandle"; PPointer "ObjectType*"] [Check 0; Check 1; Use 0 "Object"; Touch 1] (* 23-55 *);
    Fn "Object_GetOffset" [PHandle "ObjectHandle"; PPointer "offset_type*"] [Check 0; Check 1; Touch 1; Use 0 "Object"] (* 57-65 *);
    Fn "Object_GetAttributeList" [PHandle "ObjectHandle"; PResult "ObjectAttributeListHandle"] [Check 0; Check 1; Work; Use 0 "Object"; Give 1 "ObjectAttributeListHandle" "AttributeList"] (* 67-80 *);
    Fn "Object_ToString" [PHandle "ObjectHandle"; PResult "BufferHandle"] [Check 0; Check 1; Work; Use 0 "Object"; Give 1 "BufferHandle" "Buffer"] (* 82-94 *);
    Fn "Object_ToPdf" [PHandle "ObjectHandle"; PResult "BufferHandle"] [Check 0; Check 1; Work; Use 0 "Object"; Give 1 "BufferHandle" "Buffer"] (* 96-108 *);
    Fn "Object_ToUnknown" [PHandle "ObjectHandle"; PResult "IUnknownHandle"] [Check 0; Check 1; Convert 0 "Object" 1 "IUnknownHandle" "IUnknown"] (* 110-112 *);
    Fn "Object_FromUnknown" [PHandle "IUnknownHandle"; PResult "ObjectHandle"] [Check 0; Check 1; Convert 0 "IUnknown" 1 "ObjectHandle" "Object"] (* 114-116 *);
    Fn "Object_Release" [PHandle "ObjectHandle"] [Check 0; Drop 0 "Object"] (* 118-121 *) ].

(** src/vanillapdf/implementation/syntax/c_object_attribute_list.cpp *)
Definition fns_c_object_attribute_list : list fn :=
  [ Fn "ObjectAttributeList_Create" [PResult "ObjectAttributeListHandle"] [Check 0; Work; Give 0 "ObjectAttributeListHandle" "AttributeList"] (* 11-20 *);
    Fn "ObjectAttributeList_Add" [PHandle "ObjectAttributeListHandle"; PHandle "BaseObjectAttributeHandle"; PValue "boolean_type"] [Check 0; Check 1; Work; Use 0 "AttributeList"; Use 1 "BaseAttribute"] (* 22-35 *);
    Fn "ObjectAttributeList_Remove" [PHandle "ObjectAttributeListHandle"; PValue "ObjectAttributeType"; PPointer "boolean_type*"] [Check 0; Check 2; Work; Touch 2; Use 0 "AttributeList"] (* 37-51 *);
    Fn "ObjectAttributeList_Contains" [PHandle "ObjectAttributeListHandle"; PValue "ObjectAttributeType"; PPointer "boolean_type*"] [Check 0; Check 2; Work; Touch 2; Use 0 "AttributeList"] (* 53-67 *);
    Fn "ObjectAttributeList_Get" [PHandle "ObjectAttributeListHandle"; PValue "ObjectAttributeType"; PResult "BaseObjectAttributeHandle"] [Check 0; Check 2; Work; Use 0 "AttributeList"; Give 2 "BaseObjectAttributeHandle" "BaseAttribute"] (* 69-85 *);
    Fn "ObjectAttributeList_Clear" [PHandle "ObjectAttributeListHandle"] [Check 0; Work; Use 0 "AttributeList"] (* 87-96 *);
    Fn "ObjectAttributeList_ToUnknown" [PHandle "ObjectAttributeListHandle"; PResult "IUnknownHandle"] [Check 0; Check 1; Convert 0 "AttributeList" 1 "IUnknownHandle" "IUnknown"] (* 98-100 *);
    Fn "ObjectAttributeList_FromUnknown" [PHandle "IUnknownHandle"; PResult "ObjectAttributeListHandle"] [Check 0; Check 1; Convert 0 "IUnknown" 1 "ObjectAttributeListHandle" "AttributeList"] (* 102-104 *);
    Fn "ObjectAttributeList_Release" [PHandle "ObjectAttributeListHandle"] [Check 0; Drop 0 "AttributeList"] (* 106-108 *) ].

(** src/vanillapdf/implementation/syntax/c_object_attributes.cpp *)
Definition fns_c_object_attributes : list fn :=
  [ Fn "BaseObjectAttribute_GetAttributeType" [PHandle "BaseObjectAttributeHandle"; PPointer "ObjectAttributeType*"] [Check 0; Check 1; Use 0 "BaseAttribute"; Touch 1] (* 32-54 *);
    Fn "BaseObjectAttribute_ToUnknown" [PHandle "BaseObjectAttributeHandle"; PResult "IUnknownHandle"] [Check 0; Check 1; Convert 0 "BaseAttribute" 1 "IUnknownHandle" "IUnknown"] (* 56-58 *);
    Fn "BaseObjectAttribute_FromUnknown" [PHandle "IUnknownHandle"; PResult "BaseObjectAttributeHandle"] [Check 0; Check 1; Convert 0 "IUnknown" 1 "BaseObjectAttributeHandle" "BaseAttribute"] (* 60-62 *);
    Fn "BaseObjectAttribute_Release" [PHandle "BaseObjectAttributeHandle"] [Check 0; Drop 0 "BaseAttribute"] (* 64-66 *);
    Fn "ImageMetadataObjectAttribute_Create" [PResult "ImageMetadataObjectAttributeHandle"] [Check 0; Work; Give 0 "ImageMetadataObjectAttributeHandle" "ImageMetadataObjectAttribute"] (* 70-79 *);
    Fn "ImageMetadataObjectAttribute_GetColorComponents" [PHandle "ImageMetadataObjectAttributeHandle"; PPointer "integer_type*"] [Check 0; Check 1; Touch 1; Use 0 "ImageMetadataObjectAttribute"] (* 81-89 *);
    Fn "ImageMetadataObjectAttribute_SetColorComponents" [PHandle "ImageMetadataObjectAttributeHandle"; PValue "integer_type"] [Check 0; Use 0 "ImageMetadataObjectAttribute"] (* 91-97 *);
    Fn "ImageMetadataObjectAttribute_GetColorSpace" [PHandle "ImageMetadataObjectAttributeHandle"; PPointer "ImageColorSpaceType*"] [Check 0; Check 1; Touch 1; Use 0 "ImageMetadataObjectAttribute"] (* 99-108 *);
    Fn "ImageMetadataObjectAttribute_SetColorSpace" [PHandle "ImageMetadataObjectAttributeHandle"; PValue "ImageColorSpaceType"] [Check 0; Use 0 "ImageMetadataObjectAttribute"] (* 110-118 *);
    Fn "ImageMetadataObjectAttribute_GetWidth" [PHandle "ImageMetadataObjectAttributeHandle"; PPointer "integer_type*"] [Check 0; Check 1; Touch 1; Use 0 "ImageMetadataObjectAttribute"] (* 120-127 *);
    Fn "ImageMetadataObjectAttribute_SetWidth" [PHandle "ImageMetadataObjectAttributeHandle"; PValue "integer_type"] [Check 0; Use 0 "ImageMetadataObjectAttribute"] (* 129-135 *);
    Fn "ImageMetadataObjectAttribute_GetHeight" [PHandle "ImageMetadataObjectAttributeHandle"; PPointer "integer_type*"] [Check 0; Check 1; Touch 1; Use 0 "ImageMetadataObjectAttribute"] (* 137-144 *);
    Fn "ImageMetadataObjectAttribute_SetHeight" [PHandle "ImageMetadataObjectAttributeHandle"; PValue "integer_type"] [Check 0; Use 0 "ImageMetadataObjectAttribute"] (* 146-152 *);
    Fn "ImageMetadataObjectAttribute_ToBaseAttribute" [PHandle "ImageMetadataObjectAttributeHandle"; PResult "BaseObjectAttributeHandle"] [Check 0; Check 1; Convert 0 "ImageMetadataObjectAttribute" 1 "BaseObjectAttributeHandle" "BaseAttribute"] (* 154-156 *);
    Fn "ImageMetadataObjectAttribute_FromBaseAttribute" [PHandle "BaseObjectAttributeHandle"; PResult "ImageMetadataObjectAttributeHandle"] [Check 0; Check 1; Convert 0 "BaseAttribute" 1 "ImageMetadataObjectAttributeHandle" "ImageMetadataObjectAttribute"] (* 158-160 *);
    Fn "ImageMetadataObjectAttribute_Release" [PHandle "ImageMetadataObjectAttributeHandle"] [Check 0; Drop 0 "ImageMetadataObjectAttribute"] (* 162-164 *);
    Fn "SerializationOverrideObjectAttribute_Create" [PResult "SerializationOverrideObjectAttributeHandle"] [Check 0; Work; Give 0 "SerializationOverrideObjectAttributeHandle" "SerializationOverrideAttribute"] (* 168-177 *);
    Fn "SerializationOverrideObjectAttribute_CreateFromData" [PPointer "string_type"; PValue "size_type"; PResult "SerializationOverrideObjectAttributeHandle"] [Check 0; Check 2; Work; Touch 0; Give 2 "SerializationOverrideObjectAttributeHandle" "SerializationOverrideAttribute"] (* 179-190 *);
    Fn "SerializationOverrideObjectAttribute_ToBaseAttribute" [PHandle "SerializationOverrideObjectAttributeHandle"; PResult "BaseObjectAttributeHandle"] [Check 0; Check 1; Convert 0 "SerializationOverrideAttribute" 1 "BaseObjectAttributeHandle" "BaseAttribute"] (* 192-194 *);
    Fn "SerializationOverrideObjectAttribute_FromBaseAttribute" [PHandle "BaseObjectAttributeHandle"; PResult "SerializationOverrideObjectAttributeHandle"] [Check 0; Check 1; Convert 0 "BaseAttribute" 1 "SerializationOverrideObjectAttributeHandle" "SerializationOverrideAttribute"] (* 196-198 *);
    Fn "SerializationOverrideObjectAttribute_Release" [PHandle "SerializationOverrideObjectAttributeHandle"] [Check 0; Drop 0 "SerializationOverrideAttribute"] (* 200-202 *) ].

(** src/vanillapdf/implementation/syntax/c_real_object.cpp *)
Definition fns_c_real_object : list fn :=
  [ Fn "RealObject_Create" [PResult "RealObjectHandle"] [Check 0; Work; Give 0 "RealObjectHandle" "RealObject"] (* 11-20 *);
    Fn "RealObject_CreateFromData" [PValue "real_type"; PValue "integer_type"; PResult "RealObjectHandle"] [Check 2; Work; Give 2 "RealObjectHandle" "RealObject"] (* 22-31 *);
    Fn "RealObject_GetValue" [PHandle "RealObjectHandle"; PPointer "real_type*"] [Check 0; Check 1; Work; Touch 1; Use 0 "RealObject"] (* 33-44 *);
    Fn "RealObject_SetValue" [PHandle "RealObjectHandle"; PValue "real_type"] [Check 0; Work; Use 0 "RealObject"] (* 46-56 *);
    Fn "RealObject_ToObject" [PHandle "RealObjectHandle"; PResult "ObjectHandle"] [Check 0; Check 1; Convert 0 "RealObject" 1 "ObjectHandle" "Object"] (* 58-60 *);
    Fn "RealObject_FromObject" [PHandle "ObjectHandle"; PResult "RealObjectHandle"] [Check 0; Check 1; Work; Use 0 "Object"; Give 1 "RealObjectHandle" "RealObject"] (* 62-80 *);
    Fn "RealObject_Release" [PHandle "RealObjectHandle"] [Check 0; Drop 0 "RealObject"] (* 82-84 *) ].

(** src/vanillapdf/implementation/syntax/c_stream_object.cpp *)
Definition fns_c_stream_object : list fn :=
  [ Fn "StreamObject_Create" [PResult "StreamObjectHandle"] [Check 0; Work; Give 0 "StreamObjectHandle" "StreamObject"] (* 11-20 *);
    Fn "StreamObject_GetHeader" [PHandle "StreamObjectHandle"; PResult "DictionaryObjectHandle"] [Check 0; Check 1; Work; Use 0 "StreamObject"; Give 1 "DictionaryObjectHandle" "DictionaryObject"] (* 22-35 *);
    Fn "StreamObject_SetHeader" [PHandle "StreamObjectHandle"; PHandle "DictionaryObjectHandle"] [Check 0; Check 1; Work; Use 0 "StreamObject"; Use 1 "DictionaryObject"] (* 37-49 *);
    Fn "StreamObject_GetBody" [PHandle "StreamObjectHandle"; PResult "BufferHandle"] [Check 0; Check 1; Work; Use 0 "StreamObject"; Give 1 "BufferHandle" "Buffer"] (* 51-64 *);
    Fn "StreamObject_GetBodyRaw" [PHandle "StreamObjectHandle"; PResult "BufferHandle"] [Check 0; Check 1; Work; Use 0 "StreamObject"; Give 1 "BufferHandle" "Buffer"] (* 66-79 *);
    Fn "StreamObject_SetBody" [PHandle "StreamObjectHandle"; PHandle "BufferHandle"] [Check 0; Check 1; Work; Use 0 "StreamObject"; Use 1 "Buffer"] (* 81-93 *);
    Fn "StreamObject_ToObject" [PHandle "StreamObjectHandle"; PResult "ObjectHandle"] [Check 0; Check 1; Convert 0 "StreamObject" 1 "ObjectHandle" "Object"] (* 95-97 *);
    Fn "StreamObject_FromObject" [PHandle "ObjectHandle"; PResult "StreamObjectHandle"] [Check 0; Check 1; Convert 0 "Object" 1 "StreamObjectHandle" "StreamObject"] (* 99-101 *);
    Fn "StreamObject_Release" [PHandle "StreamObjectHandle"] [Check 0; Drop 0 "StreamObject"] (* 103-106 *) ].

(** src/vanillapdf/implementation/syntax/c_string_object.cpp *)
Definition fns_c_string_object : list fn :=
  [ Fn "StringObject_GetStringType" [PHandle "StringObjectHandle"; PPointer "StringType*"] [Check 0; Check 1; Use 0 "StringObjectBase"; Touch 1] (* 11-29 *);
    Fn "StringObject_GetValue" [PHandle "StringObjectHandle"; PResult "BufferHandle"] [Check 0; Check 1; Work; Use 0 "StringObjectBase"; Give 1 "BufferHandle" "Buffer"] (* 31-44 *);
    Fn "StringObject_SetValue" [PHandle "StringObjectHandle"; PHandle "BufferHandle"] [Check 0; Check 1; Work; Use 0 "StringObjectBase"; Use 1 "Buffer"] (* 46-58 *);
    Fn "StringObject_ToObject" [PHandle "StringObjectHandle"; PResult "ObjectHandle"] [Check 0; Check 1; Convert 0 "StringObjectBase" 1 "ObjectHandle" "Object"] (* 60-62 *);
    Fn "StringObject_FromObject" [PHandle "ObjectHandle"; PResult "StringObjectHandle"] [Check 0; Check 1; Convert 0 "Object" 1 "StringObjectHandle" "StringObjectBase"] (* 64-66 *);
    Fn "StringObject_Release" [PHandle "StringObjectHandle"] [Check 0; Drop 0 "StringObjectBase"] (* 68-70 *);
    Fn "LiteralStringObject_Create" [PResult "LiteralStringObjectHandle"] [Check 0; Work; Give 0 "LiteralStringObjectHandle" "LiteralStringObject"] (* 74-83 *);
    Fn "LiteralStringObject_CreateFromEncodedBuffer" [PHandle "BufferHandle"; PResult "LiteralStringObjectHandle"] [Check 1; Check 0; Work; Use 0 "Buffer"; Give 1 "LiteralStringObjectHandle" "LiteralStringObject"] (* 85-97 *);
    Fn "LiteralStringObject_CreateFromEncodedString" [PPointer "string_type"; PResult "LiteralStringObjectHandle"] [Check 1; Check 0; Work; Touch 0; Give 1 "LiteralStringObjectHandle" "LiteralStringObject"] (* 99-109 *);
    Fn "LiteralStringObject_CreateFromDecodedBuffer" [PHandle "BufferHandle"; PResult "LiteralStringObjectHandle"] [Check 1; Check 0; Work; Use 0 "Buffer"; Give 1 "LiteralStringObjectHandle" "LiteralStringObject"] (* 111-123 *);
    Fn "LiteralStringObject_CreateFromDecodedString" [PPointer "string_type"; PResult "LiteralStringObjectHandle"] [Check 1; Check 0; Work; Touch 0; Give 1 "LiteralStringObjectHandle" "LiteralStringObject"] (* 125-135 *);
    Fn "LiteralStringObject_GetValue" [PHandle "LiteralStringObjectHandle"; PResult "BufferHandle"] [Check 0; Check 1; Work; Use 0 "LiteralStringObject"; Give 1 "BufferHandle" "Buffer"] (* 137-150 *);
    Fn "LiteralStringObject_SetValue" [PHandle "LiteralStringObjectHandle"; PHandle "BufferHandle"] [Check 0; Check 1; Work; Use 0 "LiteralStringObject"; Use 1 "Buffer"] (* 152-164 *);
    Fn "LiteralStringObject_ToStringObject" [PHandle "LiteralStringObjectHandle"; PResult "StringObjectHandle"] [Check 0; Check 1; Convert 0 "LiteralStringObject" 1 "StringObjectHandle" "StringObjectBase"] (* 166-168 *);
    Fn "LiteralStringObject_FromStringObject" [PHandle "StringObjectHandle"; PResult "LiteralStringObjectHandle"] [Check 0; Check 1; Convert 0 "StringObjectBase" 1 "LiteralStringObjectHandle" "LiteralStringObject"] (* 170-172 *);
    Fn "LiteralStringObject_Release" [PHandle "LiteralStringObjectHandle"] [Check 0; Drop 0 "LiteralStringObject"] (* 174-177 *);
    Fn "HexadecimalStringObject_Create" [PResult "HexadecimalStringObjectHandle"] [Check 0; Work; Give 0 "HexadecimalStringObjectHandle" "HexadecimalStringObject"] (* 181-190 *);
    Fn "HexadecimalStringObject_CreateFromEncodedBuffer" [PHandle "BufferHandle"; PResult "HexadecimalStringObjectHandle"] [Check 1; Check 0; Work; Use 0 "Buffer"; Give 1 "HexadecimalStringObjectHandle" "HexadecimalStringObject"] (* 192-204 *);
    Fn "HexadecimalStringObject_CreateFromEncodedString" [PPointer "string_type"; PResult "HexadecimalStringObjectHandle"] [Check 1; Check 0; Work; Touch 0; Give 1 "HexadecimalStringObjectHandle" "HexadecimalStringObject"] (* 206-216 *);
    Fn "HexadecimalStringObject_CreateFromDecodedBuffer" [PHandle "BufferHandle"; PResult "HexadecimalStringObjectHandle"] [Check 1; Check 0; Work; Use 0 "Buffer"; Give 1 "HexadecimalStringObjectHandle" "HexadecimalStringObject"] (* 218-230 *);
    Fn "HexadecimalStringObject_CreateFromDecodedString" [PPointer "string_type"; PResult "HexadecimalStringObjectHandle"] [Check 1; Check 0; Work; Touch 0; Give 1 "HexadecimalStringObjectHandle" "HexadecimalStringObject"] (* 232-242 *);
    Fn "HexadecimalStringObject_GetValue" [PHandle "HexadecimalStringObjectHandle"; PResult "BufferHandle"] [Check 0; Check 1; Work; Use 0 "HexadecimalStringObject"; Give 1 "BufferHandle" "Buffer"] (* 244-257 *);
    Fn "HexadecimalStringObject_SetValue" [PHandle "HexadecimalStringObjectHandle"; PHandle "BufferHandle"] [Check 0; Check 1; Work; Use 0 "HexadecimalStringObject"; Use 1 "Buffer"] (* 259-271 *);
    Fn "HexadecimalStringObject_ToStringObject" [PHandle "HexadecimalStringObjectHandle"; PResult "StringObjectHandle"] [Check 0; Check 1; Convert 0 "HexadecimalStringObject" 1 "StringObjectHandle" "StringObjectBase"] (* 274-276 *);
    Fn "HexadecimalStringObject_FromStringObject" [PHandle "StringObjectHandle"; PResult "HexadecimalStringObjectHandle"] [Check 0; Check 1; Convert 0 "StringObjectBase" 1 "HexadecimalStringObjectHandle" "HexadecimalStringObject"] (* 278-280 *);
    Fn "HexadecimalStringObject_Release" [PHandle "HexadecimalStringObjectHandle"] [Check 0; Drop 0 "HexadecimalStringObject"] (* 282-284 *) ].

(** src/vanillapdf/implementation/syntax/c_xref.cpp *)
Definition fns_c_xref : list fn :=
  [ Fn "Xref_Create" [PResult "XrefHandle"] [Check 0; Work; Give 0 "XrefHandle" "XrefTable"] (* 12-22 *);
    Fn "Xref_Insert" [PHandle "XrefHandle"; PHandle "XrefEntryHandle"] [Check 0; Check 1; Work; Use 0 "XrefBase"; Use 1 "XrefEntryBase"] (* 24-35 *);
    Fn "Xref_Contains" [PHandle "XrefHandle"; PValue "biguint_type"; PPointer "boolean_type*"] [Check 0; Check 2; Work; Touch 2; Use 0 "XrefBase"] (* 37-47 *);
    Fn "Xref_Find" [PHandle "XrefHandle"; PValue "biguint_type"; PResult "XrefEntryHandle"] [Check 0; Check 2; Work; Use 0 "XrefBase"; Give 2 "XrefEntryHandle" "XrefEntryBase"] (* 49-61 *);
    Fn "Xref_Remove" [PHandle "XrefHandle"; PValue "biguint_type"; PPointer "boolean_type*"] [Check 0; Check 2; Work; Touch 2; Use 0 "XrefBase"] (* 63-76 *);
    Fn "Xref_Clear" [PHandle "XrefHandle"] [Check 0; Use 0 "XrefBase"] (* 78-84 *);
    Fn "Xref_GetTrailerDictionary" [PHandle "XrefHandle"; PResult "DictionaryObjectHandle"] [Check 0; Check 1; Work; Use 0 "XrefBase"; Give 1 "DictionaryObjectHandle" "DictionaryObject"] (* 86-99 *);
    Fn "Xref_GetLastXrefOffset" [PHandle "XrefHandle"; PPointer "offset_type*"] [Check 0; Check 1; Touch 1; Use 0 "XrefBase"] (* 101-109 *);
    Fn "Xref_GetIterator" [PHandle "XrefHandle"; PResult "XrefIteratorHandle"] [Check 0; Check 1; Work; Use 0 "XrefBase"; Give 1 "XrefIteratorHandle" "XrefBase::Iterator"] (* 111-124 *);
    Fn "XrefIterator_GetValue" [PHandle "XrefIteratorHandle"; PResult "XrefEntryHandle"] [Check 0; Check 1; Work; Use 0 "XrefBase::Iterator"; Give 1 "XrefEntryHandle" "XrefEntryBase"] (* 126-138 *);
    Fn "XrefIterator_Next" [PHandle "XrefIteratorHandle"] [Check 0; Work; Use 0 "XrefBase::Iterator"] (* 140-149 *);
    Fn "XrefIterator_IsValid" [PHandle "XrefIteratorHandle"; PPointer "boolean_type*"] [Check 0; Check 1; Work; Use 0 "XrefBase::Iterator"; Touch 1] (* 151-165 *);
    Fn "XrefIterator_ToUnknown" [PHandle "XrefIteratorHandle"; PResult "IUnknownHandle"] [Check 0; Check 1; Convert 0 "XrefBase::Iterator" 1 "IUnknownHandle" "IUnknown"] (* 167-169 *);
    Fn "XrefIterator_FromUnknown" [PHandle "IUnknownHandle"; PResult "XrefIteratorHandle"] [Check 0; Check 1; Convert 0 "IUnknown" 1 "XrefIteratorHandle" "XrefBase::Iterator"] (* 171-173 *);
    Fn "XrefIterator_Release" [PHandle "XrefIteratorHandle"] [Check 0; Drop 0 "XrefBase::Iterator"] (* 175-178 *);
    Fn "Xref_ToUnknown" [PHandle "XrefHandle"; PResult "IUnknownHandle"] [Check 0; Check 1; Convert 0 "XrefBase" 1 "IUnknownHandle" "IUnknown"] (* 180-182 *);
    Fn "Xref_FromUnknown" [PHandle "IUnknownHandle"; PResult "XrefHandle"] [Check 0; Check 1; Convert 0 "IUnknown" 1 "XrefHandle" "XrefBase"] (* 184-186 *);
    Fn "Xref_Release" [PHandle "XrefHandle"] [Check 0; Drop 0 "XrefBase"] (* 188-191 *);
    Fn "XrefEntry_ToUnknown" [PHandle "XrefEntryHandle"; PResult "IUnknownHandle"] [Check 0; Check 1; Convert 0 "XrefEntryBase" 1 "IUnknownHandle" "IUnknown"] (* 193-195 *);
    Fn "XrefEntry_FromUnknown" [PHandle "IUnknownHandle"; PResult "XrefEntryHandle"] [Check 0; Check 1; Convert 0 "IUnknown" 1 "XrefEntryHandle" "XrefEntryBase"] (* 197-199 *);
    Fn "XrefEntry_Release" [PHandle "XrefEntryHandle"] [Check 0; Drop 0 "XrefEntryBase"] (* 201-204 *);
    Fn "XrefEntry_InUse" [PHandle "XrefEntryHandle"; PPointer "boolean_type*"] [Check 0; Check 1; Use 0 "XrefEntryBase"; Touch 1] (* 206-218 *);
    Fn "XrefEntry_GetType" [PHandle "XrefEntryHandle"; PPointer "XrefEntryType*"] [Check 0; Check 1; Use 0 "XrefEntryBase"; Touch 1] (* 220-244 *);
    Fn "XrefEntry_GetObjectNumber" [PHandle "XrefEntryHandle"; PPointer "biguint_type*"] [Check 0; Check 1; Touch 1; Use 0 "XrefEntryBase"] (* 246-254 *);
    Fn "XrefEntry_GetGenerationNumber" [PHandle "XrefEntryHandle"; PPointer "ushort_type*"] [Check 0; Check 1; Touch 1; Use 0 "XrefEntryBase"] (* 256-264 *);
    Fn "XrefFreeEntry_Create" [PValue "biguint_type"; PValue "ushort_type"; PValue "biguint_type"; PResult "XrefFreeEntryHandle"] [Check 3; Work; Give 3 "XrefFreeEntryHandle" "XrefFreeEntry"] (* 268-278 *);
    Fn "XrefFreeEntry_GetObjectNumber" [PHandle "XrefFreeEntryHandle"; PPointer "biguint_type*"] [Check 0; Check 1; Touch 1; Use 0 "XrefFreeEntry"] (* 280-288 *);
    Fn "XrefFreeEntry_GetGenerationNumber" [PHandle "XrefFreeEntryHandle"; PPointer "ushort_type*"] [Check 0; Check 1; Touch 1; Use 0 "XrefFreeEntry"] (* 290-298 *);
    Fn "XrefFreeEntry_InUse" [PHandle "XrefFreeEntryHandle"; PPointer "boolean_type*"] [Check 0; Check 1; Touch 1; Use 0 "XrefFreeEntry"] (* 300-308 *);
    Fn "XrefFreeEntry_GetNextFreeObjectNumber" [PHandle "XrefFreeEntryHandle"; PPointer "biguint_type*"] [Check 0; Check 1; Touch 1; Use 0 "XrefFreeEntry"] (* 310-318 *);
    Fn "XrefFreeEntry_ToEntry" [PHandle "XrefFreeEntryHandle"; PResult "XrefEntryHandle"] [Check 0; Check 1; Convert 0 "XrefFreeEntry" 1 "XrefEntryHandle" "XrefEntryBase"] (* 320-322 *);
    Fn "XrefFreeEntry_FromEntry" [PHandle "XrefEntryHandle"; PResult "XrefFreeEntryHandle"] [Check 0; Check 1; Convert 0 "XrefEntryBase" 1 "XrefFreeEntryHandle" "XrefFreeEntry"] (* 324-326 *);
    Fn "XrefFreeEntry_Release" [PHandle "XrefFreeEntryHandle"] [Check 0; Drop 0 "XrefFreeEntry"] (* 328-331 *);
    Fn "XrefUsedEntry_Create" [PValue "biguint_type"; PValue "ushort_type"; PValue "offset_type"; PResult "XrefUsedEntryHandle"] [Check 3; Work; Give 3 "XrefUsedEntryHandle" "XrefUsedEntry"] (* 335-345 *);
    Fn "XrefUsedEntry_GetObjectNumber" [PHandle "XrefUsedEntryHandle"; PPointer "biguint_type*"] [Check 0; Check 1; Touch 1; Use 0 "XrefUsedEntry"] (* 347-355 *);
    Fn "XrefUsedEntry_GetGenerationNumber" [PHandle "XrefUsedEntryHandle"; PPointer "ushort_type*"] [Check 0; Check 1; Touch 1; Use 0 "XrefUsedEntry"] (* 357-365 *);
    Fn "XrefUsedEntry_GetOffset" [PHandle "XrefUsedEntryHandle"; PPointer "offset_type*"] [Check 0; Check 1; Touch 1; Use 0 "XrefUsedEntry"] (* 367-375 *);
    Fn "XrefUsedEntry_InUse" [PHandle "XrefUsedEntryHandle"; PPointer "boolean_type*"] [Check 0; Check 1; Touch 1; Use 0 "XrefUsedEntry"] (* 377-385 *);
    Fn "XrefUsedEntry_ToEntry" [PHandle "XrefUsedEntryHandle"; PResult "XrefEntryHandle"] [Check 0; Check 1; Convert 0 "XrefUsedEntry" 1 "XrefEntryHandle" "XrefEntryBase"] (* 387-389 *);
    Fn "XrefUsedEntry_FromEntry" [PHandle "XrefEntryHandle"; PResult "XrefUsedEntryHandle"] [Check 0; Check 1; Convert 0 "XrefEntryBase" 1 "XrefUsedEntryHandle" "XrefUsedEntry"] (* 391-393 *);
    Fn "XrefUsedEntry_Release" [PHandle "XrefUsedEntryHandle"] [Check 0; Drop 0 "XrefUsedEntry"] (* 395-398 *);
    Fn "XrefCompressedEntry_Create" [PValue "biguint_type"; PValue "ushort_type"; PValue "biguint_type"; PValue "size_type"; PResult "XrefCompressedEntryHandle"] [Check 4; Work; Give 4 "XrefCompressedEntryHandle" "XrefCompressedEntry"] (* 402-412 *);
    Fn "XrefCompressedEntry_GetObjectNumber" [PHandle "XrefCompressedEntryHandle"; PPointer "biguint_type*"] [Check 0; Check 1; Touch 1; Use 0 "XrefCompressedEntry"] (* 414-422 *);
    Fn "XrefCompressedEntry_GetGenerationNumber" [PHandle "XrefCompressedEntryHandle"; PPointer "ushort_type*"] [Check 0; Check 1; Touch 1; Use 0 "XrefCompressedEntry"] (* 424-432 *);
    Fn "XrefCompressedEntry_InUse" [PHandle "XrefCompressedEntryHandle"; PPointer "boolean_type*"] [Check 0; Check 1; Touch 1; Use 0 "XrefCompressedEntry"] (* 434-442 *);
    Fn "XrefCompressedEntry_GetIndex" [PHandle "XrefCompressedEntryHandle"; PPointer "size_type*"] [Check 0; Check 1; Touch 1; Use 0 "XrefCompressedEntry"] (* 444-452 *);
    Fn "XrefCompressedEntry_GetObjectStreamNumber" [PHandle "XrefCompressedEntryHandle"; PPointer "biguint_type*"] [Check 0; Check 1; Touch 1; Use 0 "XrefCompressedEntry"] (* 454-462 *);
    Fn "XrefCompressedEntry_ToEntry" [PHandle "XrefCompressedEntryHandle"; PResult "XrefEntryHandle"] [Check 0; Check 1; Convert 0 "XrefCompressedEntry" 1 "XrefEntryHandle" "XrefEntryBase"] (* 464-466 *);
    Fn "XrefCompressedEntry_FromEntry" [PHandle "XrefEntryHandle"; PResult "XrefCompressedEntryHandle"] [Check 0; Check 1; Convert 0 "XrefEntryBase" 1 "XrefCompressedEntryHandle" "XrefCompressedEntry"] (* 468-470 *);
    Fn "XrefCompressedEntry_Release" [PHandle "XrefCompressedEntryHandle"] [Check 0; Drop 0 "XrefCompressedEntry"] (* 472-475 *);
    Fn "XrefUsedEntry_GetReference" [PHandle "XrefUsedEntryHandle"; PResult "ObjectHandle"] [Check 0; Check 1; Work; Use 0 "XrefUsedEntry"; Give 1 "ObjectHandle" "Object"] (* 477-489 *);
    Fn "XrefUsedEntry_SetReference" [PHandle "XrefUsedEntryHandle"; PHandle "ObjectHandle"] [Check 0; Check 1; Work; Use 0 "XrefUsedEntry"; Use 1 "Object"] (* 491-502 *);
    Fn "XrefCompressedEntry_GetReference" [PHandle "XrefCompressedEntryHandle"; PResult "ObjectHandle"] [Check 0; Check 1; Work; Use 0 "XrefCompressedEntry"; Give 1 "ObjectHandle" "Object"] (* 504-518 *);
    Fn "XrefCompressedEntry_SetReference" [PHandle "XrefCompressedEntryHandle"; PHandle "ObjectHandle"] [Check 0; Check 1; Work; Use 0 "XrefCompressedEntry"; Use 1 "Object"] (* 520-530 *);
    Fn "XrefChainIterator_GetValue" [PHandle "XrefChainIteratorHandle"; PResult "XrefHandle"] [Check 0; Check 1; Work; Use 0 "XrefChain::Iterator"; Give 1 "XrefHandle" "XrefBase"] (* 532-544 *);
    Fn "XrefChainIterator_Next" [PHandle "XrefChainIteratorHandle"] [Check 0; Work; Use 0 "XrefChain::Iterator"] (* 546-555 *);
    Fn "XrefChainIterator_IsValid" [PHandle "XrefChainIteratorHandle"; PPointer "boolean_type*"] [Check 0; Check 1; Work; Use 0 "XrefChain::Iterator"; Touch 1] (* 557-571 *);
    Fn "XrefChainIterator_ToUnknown" [PHandle "XrefChainIteratorHandle"; PResult "IUnknownHandle"] [Check 0; Check 1; Convert 0 "XrefChain::Iterator" 1 "IUnknownHandle" "IUnknown"] (* 573-575 *);
    Fn "XrefChainIterator_FromUnknown" [PHandle "IUnknownHandle"; PResult "XrefChainIteratorHandle"] [Check 0; Check 1; Convert 0 "IUnknown" 1 "XrefChainIteratorHandle" "XrefChain::Iterator"] (* 577-579 *);
    Fn "XrefChainIterator_Release" [PHandle "XrefChainIteratorHandle"] [Check 0; Drop 0 "XrefChain::Iterator"] (* 581-584 *);
    Fn "XrefChain_GetIterator" [PHandle "XrefChainHandle"; PResult "XrefChainIteratorHandle"] [Check 0; Check 1; Work; Use 0 "XrefChain"; Give 1 "XrefChainIteratorHandle" "XrefChain::Iterator"] (* 586-599 *);
    Fn "XrefChain_ToUnknown" [PHandle "XrefChainHandle"; PResult "IUnknownHandle"] [Check 0; Check 1; Convert 0 "XrefChain" 1 "IUnknownHandle" "IUnknown"] (* 601-603 *);
    Fn "XrefChain_FromUnknown" [PHandle "IUnknownHandle"; PResult "XrefChainHandle"] [Check 0; Check 1; Convert 0 "IUnknown" 1 "XrefChainHandle" "XrefChain"] (* 605-607 *);
    Fn "XrefChain_Release" [PHandle "XrefChainHandle"] [Check 0; Drop 0 "XrefChain"] (* 609-612 *) ].

(** src/vanillapdf/implementation/utils/c_buffer.cpp *)
Definition fns_c_buffer : list fn :=
  [ Fn "Buffer_Create" [PResult "BufferHandle"] [Check 0; Work; Give 0 "BufferHandle" "Buffer"] (* 8-17 *);
    Fn "Buffer_CreateFromData" [PPointer "string_type"; PValue "size_type"; PResult "BufferHandle"] [Check 0; Check 2; Work; Touch 0; Give 2 "BufferHandle" "Buffer"] (* 19-31 *);
    Fn "Buffer_GetData" [PHandle "BufferHandle"; PPointer "string_type*"; PPointer "size_type*"] [Check 0; Check 1; Check 2; Touch 1; Use 0 "Buffer"; Touch 2] (* 33-43 *);
    Fn "Buffer_SetData" [PHandle "BufferHandle"; PPointer "string_type"; PValue "size_type"] [Check 0; Check 1; Work; Use 0 "Buffer"; Touch 1] (* 45-56 *);
    Fn "Buffer_CopyTo" [PHandle "BufferHandle"; PPointer "byte_array_type"; PValue "size_type"] [Check 0; Check 1; Work; Use 0 "Buffer"; Touch 1] (* 58-73 *);
    Fn "Buffer_ToInputStream" [PHandle "BufferHandle"; PResult "InputStreamHandle"] [Check 0; Check 1; Work; Use 0 "Buffer"; Give 1 "InputStreamHandle" "IInputStream"] (* 75-86 *);
    Fn "Buffer_Equals" [PHandle "BufferHandle"; PHandle "BufferHandle"; PPointer "boolean_type*"] [Check 0; Check 1; Check 2; Work; Touch 2; Use 0 "Buffer"; Use 1 "Buffer"] (* 88-100 *);
    Fn "Buffer_Hash" [PHandle "BufferHandle"; PPointer "size_type*"] [Check 0; Check 1; Work; Touch 1; Use 0 "Buffer"] (* 102-112 *);
    Fn "Buffer_ToUnknown" [PHandle "BufferHandle"; PResult "IUnknownHandle"] [Check 0; Check 1; Convert 0 "Buffer" 1 "IUnknownHandle" "IUnknown"] (* 114-116 *);
    Fn "Buffer_FromUnknown" [PHandle "IUnknownHandle"; PResult "BufferHandle"] [Check 0; Check 1; Convert 0 "IUnknown" 1 "BufferHandle" "Buffer"] (* 118-120 *);
    Fn "Buffer_Release" [PHandle "BufferHandle"] [Check 0; Drop 0 "Buffer"] (* 122-125 *) ].

(** src/vanillapdf/implementation/utils/c_buffer_array.cpp *)
Definition fns_c_buffer_array : list fn :=
  [ Fn "BufferArray_Create" [PResult "BufferArrayHandle"] [Check 0; Work; Give 0 "BufferArrayHandle" "BufferArray"] (* 10-19 *);
    Fn "BufferArray_GetSize" [PHandle "BufferArrayHandle"; PPointer "size_type*"] [Check 0; Check 1; Touch 1; Use 0 "BufferArray"] (* 21-28 *);
    Fn "BufferArray_At" [PHandle "BufferArrayHandle"; PValue "size_type"; PResult "BufferHandle"] [Check 0; Check 2; Work; Use 0 "BufferArray"; Give 2 "BufferHandle" "Buffer"] (* 30-41 *);
    Fn "BufferArray_Append" [PHandle "BufferArrayHandle"; PHandle "BufferHandle"] [Check 0; Check 1; Work; Use 0 "BufferArray"; Use 1 "Buffer"] (* 43-54 *);
    Fn "BufferArray_Insert" [PHandle "BufferArrayHandle"; PValue "size_type"; PHandle "BufferHandle"] [Check 0; Check 2; Work; Use 0 "BufferArray"; Use 2 "Buffer"] (* 56-67 *);
    Fn "BufferArray_Remove" [PHandle "BufferArrayHandle"; PValue "size_type"] [Check 0; Work; Use 0 "BufferArray"] (* 69-81 *);
    Fn "BufferArray_ToUnknown" [PHandle "BufferArrayHandle"; PResult "IUnknownHandle"] [Check 0; Check 1; Convert 0 "BufferArray" 1 "IUnknownHandle" "IUnknown"] (* 83-85 *);
    Fn "BufferArray_FromUnknown" [PHandle "IUnknownHandle"; PResult "BufferArrayHandle"] [Check 0; Check 1; Convert 0 "IUnknown" 1 "BufferArrayHandle" "BufferArray"] (* 87-89 *);
    Fn "BufferArray_Release" [PHandle "BufferArrayHandle"] [Check 0; Drop 0 "BufferArray"] (* 91-93 *) ].

(** src/vanillapdf/implementation/utils/c_encryption.cpp *)
Definition fns_c_encryption : list fn :=
  [ Fn "EncryptionKey_CreateCustom" [PPointer "EncryptionKeyInitializeFunction"; PPointer "EncryptionKeyCleanupFunction"; PPointer "EncryptionKeyDecryptFunction"; PPointer "EncryptionKeyContainsFunction"; PResult "EncryptionKeyHandle"] [Check 0; Check 1; Check 2; Check 3; Check 4; Work; Give 4 "EncryptionKeyHandle" "IEncryptionKey"] (* 95-116 *);
    Fn "EncryptionKey_Release" [PHandle "EncryptionKeyHandle"] [Check 0; Drop 0 "IEncryptionKey"] (* 118-120 *) ].

(** src/vanillapdf/implementation/utils/c_errors.cpp *)
Definition fns_c_errors : list fn :=
  [ Fn "Errors_GetLastError" [PPointer "error_type*"] [Check 0; Touch 0] (* 58-63 *);
    Fn "Errors_GetPrintableErrorTextLength" [PValue "error_type"; PPointer "size_type*"] [Check 1; Touch 1] (* 65-79 *);
    Fn "Errors_GetPrintableErrorText" [PValue "error_type"; PPointer "char*"; PValue "size_type"] [Check 1; Touch 1] (* 81-102 *);
    Fn "Errors_GetLastErrorMessageLength" [PPointer "size_type*"] [Check 0; Touch 0] (* 104-109 *);
    Fn "Errors_GetLastErrorMessage" [PPointer "char*"; PValue "size_type"] [Check 0; Touch 0] (* 111-124 *) ].

(** src/vanillapdf/implementation/utils/c_input_output_stream.cpp *)
Definition fns_c_input_output_stream : list fn :=
  [ Fn "InputOutputStream_CreateFromFile" [PPointer "string_type"; PResult "InputOutputStreamHandle"] [Check 0; Check 1; Work; Touch 0; Give 1 "InputOutputStreamHandle" "IInputOutputStream"] (* 11-21 *);
    Fn "InputOutputStream_CreateFromMemory" [PResult "InputOutputStreamHandle"] [Check 0; Work; Give 0 "InputOutputStreamHandle" "IInputOutputStream"] (* 23-32 *);
    Fn "InputOutputStream_Read" [PHandle "InputOutputStreamHandle"; PValue "bigint_type"; PPointer "char*"; PPointer "bigint_type*"] [Check 0; Check 2; Check 3; Work; Touch 3; Use 0 "IInputOutputStream"; Touch 2] (* 34-45 *);
    Fn "InputOutputStream_ReadBuffer" [PHandle "InputOutputStreamHandle"; PValue "bigint_type"; PResult "BufferHandle"] [Check 0; Check 2; Work; Use 0 "IInputOutputStream"; Give 2 "BufferHandle" "Buffer"] (* 47-59 *);
    Fn "InputOutputStream_GetInputPosition" [PHandle "InputOutputStreamHandle"; PPointer "offset_type*"] [Check 0; Check 1; Work; Touch 1; Use 0 "IInputOutputStream"] (* 61-71 *);
    Fn "InputOutputStream_SetInputPosition" [PHandle "InputOutputStreamHandle"; PValue "offset_type"] [Check 0; Work; Use 0 "IInputOutputStream"] (* 73-82 *);
    Fn "InputOutputStream_GetOutputPosition" [PHandle "InputOutputStreamHandle"; PPointer "offset_type*"] [Check 0; Check 1; Work; Touch 1; Use 0 "IInputOutputStream"] (* 84-94 *);
    Fn "InputOutputStream_SetOutputPosition" [PHandle "InputOutputStreamHandle"; PValue "offset_type"] [Check 0; Work; Use 0 "IInputOutputStream"] (* 96-105 *);
    Fn "InputOutputStream_WriteString" [PHandle "InputOutputStreamHandle"; PPointer "string_type"] [Check 0; Check 1; Work; Use 0 "IInputOutputStream"; Touch 1] (* 107-117 *);
    Fn "InputOutputStream_WriteBuffer" [PHandle "InputOutputStreamHandle"; PHandle "BufferHandle"] [Check 0; Check 1; Work; Use 0 "IInputOutputStream"; Use 1 "Buffer"] (* 119-130 *);
    Fn "InputOutputStream_Flush" [PHandle "InputOutputStreamHandle"] [Check 0; Work; Use 0 "IInputOutputStream"] (* 132-140 *);
    Fn "InputOutputStream_ToInputStream" [PHandle "InputOutputStreamHandle"; PResult "InputStreamHandle"] [Check 0; Check 1; Convert 0 "IInputOutputStream" 1 "InputStreamHandle" "IInputStream"] (* 142-144 *);
    Fn "InputOutputStream_FromInputStream" [PHandle "InputStreamHandle"; PResult "InputOutputStreamHandle"] [Check 0; Check 1; Convert 0 "IInputStream" 1 "InputOutputStreamHandle" "IInputOutputStream"] (* 146-148 *);
    Fn "InputOutputStream_ToOutputStream" [PHandle "InputOutputStreamHandle"; PResult "OutputStreamHandle"] [Check 0; Check 1; Convert 0 "IInputOutputStream" 1 "OutputStreamHandle" "IOutputStream"] (* 150-152 *);
    Fn "InputOutputStream_FromOutputStream" [PHandle "OutputStreamHandle"; PResult "InputOutputStreamHandle"] [Check 0; Check 1; Convert 0 "IOutputStream" 1 "InputOutputStreamHandle" "IInputOutputStream"] (* 154-156 *);
    Fn "InputOutputStream_ToUnknown" [PHandle "InputOutputStreamHandle"; PResult "IUnknownHandle"] [Check 0; Check 1; Convert 0 "IInputOutputStream" 1 "IUnknownHandle" "IUnknown"] (* 158-160 *);
    Fn "InputOutputStream_FromUnknown" [PHandle "IUnknownHandle"; PResult "InputOutputStreamHandle"] [Check 0; Check 1; Convert 0 "IUnknown" 1 "InputOutputStreamHandle" "IInputOutputStream"] (* 162-164 *);
    Fn "InputOutputStream_Release" [PHandle "InputOutputStreamHandle"] [Check 0; Drop 0 "IInputOutputStream"] (* 166-168 *) ].

(** src/vanillapdf/implementation/utils/c_input_stream.cpp *)
Definition fns_c_input_stream : list fn :=
  [ Fn "InputStream_CreateFromFile" [PPointer "string_type"; PResult "InputStreamHandle"] [Check 0; Check 1; Work; Touch 0; Give 1 "InputStreamHandle" "IInputStream"] (* 11-21 *);
    Fn "InputStream_CreateFromBuffer" [PHandle "BufferHandle"; PResult "InputStreamHandle"] [Check 0; Check 1; Work; Use 0 "Buffer"; Give 1 "InputStreamHandle" "IInputStream"] (* 23-35 *);
    Fn "InputStream_Read" [PHandle "InputStreamHandle"; PValue "bigint_type"; PPointer "char*"; PPointer "bigint_type*"] [Check 0; Check 2; Check 3; Work; Touch 3; Use 0 "IInputStream"; Touch 2] (* 37-48 *);
    Fn "InputStream_ReadBuffer" [PHandle "InputStreamHandle"; PValue "bigint_type"; PResult "BufferHandle"] [Check 0; Check 2; Work; Use 0 "IInputStream"; Give 2 "BufferHandle" "Buffer"] (* 50-62 *);
    Fn "InputStream_ToBuffer" [PHandle "InputStreamHandle"; PResult "BufferHandle"] [Check 0; Check 1; Work; Use 0 "IInputStream"; Give 1 "BufferHandle" "Buffer"] (* 64-76 *);
    Fn "InputStream_GetInputPosition" [PHandle "InputStreamHandle"; PPointer "offset_type*"] [Check 0; Check 1; Work; Touch 1; Use 0 "IInputStream"] (* 78-88 *);
    Fn "InputStream_SetInputPosition" [PHandle "InputStreamHandle"; PValue "offset_type"] [Check 0; Work; Use 0 "IInputStream"] (* 90-99 *);
    Fn "InputStream_ToUnknown" [PHandle "InputStreamHandle"; PResult "IUnknownHandle"] [Check 0; Check 1; Convert 0 "IInputStream" 1 "IUnknownHandle" "IUnknown"] (* 101-103 *);
    Fn "InputStream_FromUnknown" [PHandle "IUnknownHandle"; PResult "InputStreamHandle"] [Check 0; Check 1; Convert 0 "IUnknown" 1 "InputStreamHandle" "IInputStream"] (* 105-107 *);
    Fn "InputStream_Release" [PHandle "InputStreamHandle"] [Check 0; Drop 0 "IInputStream"] (* 109-111 *) ].

(** src/vanillapdf/implementation/utils/c_library_info.cpp *)
Definition fns_c_library_info : list fn :=
  [ Fn "LibraryInfo_GetVersionMajor" [PPointer "integer_type*"] [Check 0; Touch 0] (* 9-14 *);
    Fn "LibraryInfo_GetVersionMinor" [PPointer "integer_type*"] [Check 0; Touch 0] (* 16-21 *);
    Fn "LibraryInfo_GetVersionPatch" [PPointer "integer_type*"] [Check 0; Touch 0] (* 23-28 *);
    Fn "LibraryInfo_GetVersionBuild" [PPointer "integer_type*"] [Check 0; Touch 0] (* 30-35 *);
    Fn "LibraryInfo_GetAuthor" [PPointer "string_type*"] [Check 0; Touch 0] (* 37-42 *);
    Fn "LibraryInfo_GetBuildDay" [PPointer "integer_type*"] [Check 0; Touch 0] (* 44-49 *);
    Fn "LibraryInfo_GetBuildMonth" [PPointer "integer_type*"] [Check 0; Touch 0] (* 51-56 *);
    Fn "LibraryInfo_GetBuildYear" [PPointer "integer_type*"] [Check 0; Touch 0] (* 58-63 *) ].

(** src/vanillapdf/implementation/utils/c_license_info.cpp *)
Definition fns_c_license_info : list fn :=
  [ Fn "LicenseInfo_SetLicenseFile" [PPointer "string_type"] [Check 0; Work; Touch 0] (* 9-16 *);
    Fn "LicenseInfo_SetLicenseBuffer" [PHandle "BufferHandle"] [Check 0; Work; Use 0 "Buffer"] (* 18-26 *);
    Fn "LicenseInfo_IsValid" [PPointer "boolean_type*"] [Check 0; Work; Touch 0] (* 28-35 *);
    Fn "LicenseInfo_IsTemporary" [PPointer "boolean_type*"] [Check 0; Work; Touch 0] (* 37-44 *) ].

(** src/vanillapdf/implementation/utils/c_logging.cpp *)
Definition fns_c_logging : list fn :=
  [ Fn "Logging_SetCallbackLogger" [PPointer "Sink_Log_Function"; PPointer "Sink_Flush_Function"; PPointer "void*"] [Check 0; Check 1; Work] (* 68-83 *);
    Fn "Logging_SetRotatingFileLogger" [PPointer "string_type"; PValue "integer_type"; PValue "integer_type"] [Check 0; Work; Touch 0] (* 85-96 *);
    Fn "Logging_SetPattern" [PPointer "string_type"] [Check 0; Work; Touch 0] (* 98-108 *);
    Fn "Logging_GetSeverity" [PPointer "LoggingSeverity*"] [Check 0; Work; Touch 0] (* 110-139 *);
    Fn "Logging_SetSeverity" [PValue "LoggingSeverity"] [Work] (* 141-167 *);
    Fn "Logging_Shutdown" [] [Work] (* 169-176 *) ].

(** src/vanillapdf/implementation/utils/c_output_stream.cpp *)
Definition fns_c_output_stream : list fn :=
  [ Fn "OutputStream_CreateFromFile" [PPointer "string_type"; PResult "OutputStreamHandle"] [Check 0; Check 1; Work; Touch 0; Give 1 "OutputStreamHandle" "IOutputStream"] (* 11-21 *);
    Fn "OutputStream_GetOutputPosition" [PHandle "OutputStreamHandle"; PPointer "offset_type*"] [Check 0; Check 1; Work; Touch 1; Use 0 "IOutputStream"] (* 23-33 *);
    Fn "OutputStream_SetOutputPosition" [PHandle "OutputStreamHandle"; PValue "offset_type"] [Check 0; Work; Use 0 "IOutputStream"] (* 35-44 *);
    Fn "OutputStream_WriteString" [PHandle "OutputStreamHandle"; PPointer "string_type"] [Check 0; Check 1; Work; Use 0 "IOutputStream"; Touch 1] (* 46-56 *);
    Fn "OutputStream_WriteBuffer" [PHandle "OutputStreamHandle"; PHandle "BufferHandle"] [Check 0; Check 1; Work; Use 0 "IOutputStream"; Use 1 "Buffer"] (* 58-69 *);
    Fn "OutputStream_Flush" [PHandle "OutputStreamHandle"] [Check 0; Work; Use 0 "IOutputStream"] (* 71-79 *);
    Fn "OutputStream_ToUnknown" [PHandle "OutputStreamHandle"; PResult "IUnknownHandle"] [Check 0; Check 1; Convert 0 "IOutputStream" 1 "IUnknownHandle" "IUnknown"] (* 81-83 *);
    Fn "OutputStream_FromUnknown" [PHandle "IUnknownHandle"; PResult "OutputStreamHandle"] [Check 0; Check 1; Convert 0 "IUnknown" 1 "OutputStreamHandle" "IOutputStream"] (* 85-87 *);
    Fn "OutputStream_Release" [PHandle "OutputStreamHandle"] [Check 0; Drop 0 "IOutputStream"] (* 89-91 *) ].

(** src/vanillapdf/implementation/utils/c_pkcs12_key.cpp *)
Definition fns_c_pkcs12_key : list fn :=
  [ Fn "PKCS12Key_CreateFromFile" [PPointer "string_type"; PPointer "string_type"; PResult "PKCS12KeyHandle"] [Check 0; Check 2; Work; Touch 0; TouchSome 1; Give 2 "PKCS12KeyHandle" "PKCS12Key"] (* 12-28 *);
    Fn "PKCS12Key_CreateFromBuffer" [PHandle "BufferHandle"; PPointer "string_type"; PResult "PKCS12KeyHandle"] [Check 0; Check 2; Work; TouchSome 1; Use 0 "Buffer"; Give 2 "PKCS12KeyHandle" "PKCS12Key"] (* 30-47 *);
    Fn "PKCS12Key_ToEncryptionKey" [PHandle "PKCS12KeyHandle"; PResult "EncryptionKeyHandle"] [Check 0; Check 1; Convert 0 "PKCS12Key" 1 "EncryptionKeyHandle" "IEncryptionKey"] (* 75-77 *);
    Fn "PKCS12Key_FromEncryptionKey" [PHandle "EncryptionKeyHandle"; PResult "PKCS12KeyHandle"] [Check 0; Check 1; Convert 0 "IEncryptionKey" 1 "PKCS12KeyHandle" "PKCS12Key"] (* 79-81 *);
    Fn "PKCS12Key_ToSigningKey" [PHandle "PKCS12KeyHandle"; PResult "SigningKeyHandle"] [Check 0; Check 1; Convert 0 "PKCS12Key" 1 "SigningKeyHandle" "ISigningKey"] (* 83-85 *);
    Fn "PKCS12Key_FromSigningKey" [PHandle "SigningKeyHandle"; PResult "PKCS12KeyHandle"] [Check 0; Check 1; Convert 0 "ISigningKey" 1 "PKCS12KeyHandle" "PKCS12Key"] (* 87-89 *);
    Fn "PKCS12Key_Release" [PHandle "PKCS12KeyHandle"] [Check 0; Drop 0 "PKCS12Key"] (* 91-93 *) ].

(** src/vanillapdf/implementation/utils/c_signing_key.cpp *)
Definition fns_c_signing_key : list fn :=
  [ Fn "SigningKey_CreateCustom" [PPointer "SigningKey_Initialize_Function"; PPointer "SigningKey_Update_Function"; PPointer "SigningKey_Final_Function"; PPointer "SigningKey_Cleanup_Function"; PPointer "void*"; PResult "SigningKeyHandle"] [Check 0; Check 1; Check 2; Check 3; Check 5; Work; Give 5 "SigningKeyHandle" "ISigningKey"] (* 142-162 *);
    Fn "SigningKey_ToUnknown" [PHandle "SigningKeyHandle"; PResult "IUnknownHandle"] [Check 0; Check 1; Convert 0 "ISigningKey" 1 "IUnknownHandle" "IUnknown"] (* 164-166 *);
    Fn "SigningKey_FromUnknown" [PHandle "IUnknownHandle"; PResult "SigningKeyHandle"] [Check 0; Check 1; Convert 0 "IUnknown" 1 "SigningKeyHandle" "ISigningKey"] (* 168-170 *);
    Fn "SigningKey_Release" [PHandle "SigningKeyHandle"] [Check 0; Drop 0 "ISigningKey"] (* 172-174 *) ].

(** src/vanillapdf/implementation/utils/c_unknown_interface.cpp *)
Definition fns_c_unknown_interface : list fn :=
  [ Fn "IUnknown_AddRef" [PHandle "IUnknownHandle"] [Check 0; Share 0 "IUnknown"] (* 9-16 *);
    Fn "IUnknown_Release" [PHandle "IUnknownHandle"] [Check 0; Drop 0 "IUnknown"] (* 18-21 *) ].

(** every function of the interface *)
Definition interface : list fn :=
  fns_c_base_font_range
  ++ fns_c_content_instruction
  ++ fns_c_content_object
  ++ fns_c_content_operation
  ++ fns_c_content_operator
  ++ fns_c_content_parser
  ++ fns_c_annotations
  ++ fns_c_catalog
  ++ fns_c_character_map
  ++ fns_c_date
  ++ fns_c_destinations
  ++ fns_c_developer_extensions
  ++ fns_c_digital_signature
  ++ fns_c_document
  ++ fns_c_document_encryption_settings
  ++ fns_c_document_info
  ++ fns_c_document_signature_settings
  ++ fns_c_fields
  ++ fns_c_font
  ++ fns_c_font_map
  ++ fns_c_interactive_forms
  ++ fns_c_outline
  ++ fns_c_page_contents
  ++ fns_c_page_labels
  ++ fns_c_page_object
  ++ fns_c_page_tree
  ++ fns_c_rectangle
  ++ fns_c_resource_dictionary
  ++ fns_c_viewer_preferences
  ++ fns_c_array_object
  ++ fns_c_boolean_object
  ++ fns_c_dictionary_object
  ++ fns_c_file
  ++ fns_c_file_writer
  ++ fns_c_file_writer_observer
  ++ fns_c_filter
  ++ fns_c_indirect_reference_object
  ++ fns_c_integer_object
  ++ fns_c_name_object
  ++ fns_c_null_object
  ++ fns_c_object
  ++ fns_c_object_attribute_list
  ++ fns_c_object_attributes
  ++ fns_c_real_object
  ++ fns_c_stream_object
  ++ fns_c_string_object
  ++ fns_c_xref
  ++ fns_c_buffer
  ++ fns_c_buffer_array
  ++ fns_c_encryption
  ++ fns_c_errors
  ++ fns_c_input_output_stream
  ++ fns_c_input_stream
  ++ fns_c_library_info
  ++ fns_c_license_info
  ++ fns_c_logging
  ++ fns_c_output_stream
  ++ fns_c_pkcs12_key
  ++ fns_c_signing_key
  ++ fns_c_unknown_interface.
