-Q theories Verif
theories/Model/Base.v
theories/Model/Char.v
theories/Model/Numbers.v
theories/Model/Token.v
theories/Model/Lines.v
theories/Model/SMap.v
theories/Model/Object.v
theories/Model/Parser.v
theories/Proof/Tac.v
theories/Proof/Numbers.v
theories/Spec/Strings.v
theories/Proof/Strings.v
theories/Spec/Grammar.v
theories/Proof/Token.v
theories/Proof/SMap.v
theories/Proof/ParserAny.v
theories/Proof/Parser.v
theories/Proof/Writer.v
theories/Proof/StreamObj.v
theories/Props/Objects.v
theories/Model/Arith.v
theories/Model/Buffer.v
theories/Spec/Arith.v
theories/Proof/Arith.v
theories/Props/Arith.v
theories/Model/Filters.v
theories/Spec/Filters.v
theories/Proof/Filters.v
theories/Props/Filters.v
theories/Model/Containers.v
theories/Spec/Containers.v
theories/Proof/Containers.v
theories/Props/Containers.v
theories/Model/Heap.v
theories/Spec/Heap.v
theories/Proof/Heap.v
theories/Proof/HeapOps.v
theories/Props/Heap.v
theories/Model/Equality.v
theories/Spec/Equality.v
theories/Proof/Equality.v
theories/Model/Deref.v
theories/Spec/Deref.v
theories/Proof/Deref.v
theories/Props/Equality.v
theories/Model/Xref.v
theories/Spec/Xref.v
theories/Proof/Xref.v
theories/Proof/XrefStream.v
theories/Model/StartXref.v
theories/Model/Header.v
theories/Spec/FileWrite.v
theories/Proof/StartXref.v
theories/Props/Xref.v
theories/Props/StartXref.v
theories/Model/FileWrite.v
theories/Proof/FileWrite.v
theories/Proof/Recover.v
theories/Props/FileWrite.v
theories/Model/ObjStream.v
theories/Spec/ObjStream.v
theories/Spec/Recover.v
theories/Proof/ObjStream.v
theories/Props/ObjStream.v
theories/Props/Recover.v
theories/Model/Chain.v
theories/Spec/Chain.v
theories/Proof/Chain.v
theories/Props/Chain.v
theories/Model/Merge.v
theories/Spec/Merge.v
theories/Proof/Merge.v
theories/Props/Merge.v
theories/Model/Update.v
theories/Spec/Update.v
theories/Proof/Update.v
theories/Props/Update.v
theories/Model/Unreferenced.v
theories/Spec/Unreferenced.v
theories/Proof/Unreferenced.v
theories/Props/Unreferenced.v
theories/Model/Duplicates.v
theories/Spec/Duplicates.v
theories/Proof/Duplicates.v
theories/Props/Duplicates.v
theories/Model/DeepCopy.v
theories/Spec/DeepCopy.v
theories/Proof/DeepCopy.v
theories/Props/DeepCopy.v
theories/Model/Digest.v
theories/Model/Encryption.v
theories/Spec/Encryption.v
theories/Proof/Encryption.v
theories/Props/Encryption.v
theories/Model/Date.v
theories/Spec/Date.v
theories/Proof/Date.v
theories/Props/Date.v
theories/Model/TokenCache.v
theories/Spec/TokenCache.v
theories/Proof/TokenCache.v
theories/Props/TokenCache.v
theories/Model/RefCount.v
theories/Spec/RefCount.v
theories/Proof/RefCount.v
theories/Props/RefCount.v
theories/Model/StreamBody.v
theories/Spec/StreamBody.v
theories/Proof/StreamBody.v
theories/Proof/BodyReads.v
theories/Props/StreamBody.v
theories/Model/PageTree.v
theories/Spec/PageTree.v
theories/Proof/PageTree.v
theories/Props/PageTree.v
theories/Model/Tree.v
theories/Spec/Tree.v
theories/Proof/Tree.v
theories/Props/Tree.v
theories/Model/CharMap.v
theories/Spec/CharMap.v
theories/Proof/CharMap.v
theories/Props/CharMap.v
theories/Model/Content.v
theories/Spec/Content.v
theories/Proof/Content.v
theories/Proof/ContentWrite.v
theories/Proof/ContentEnds.v
theories/Props/Content.v
theories/Model/PageContents.v
theories/Spec/PageContents.v
theories/Proof/PageContents.v
theories/Props/PageContents.v
theories/Model/Rebuild.v
theories/Spec/Rebuild.v
theories/Proof/Rebuild.v
theories/Props/Rebuild.v
theories/Model/Append.v
theories/Spec/Append.v
theories/Proof/Append.v
theories/Props/Append.v
theories/Model/Sign.v
theories/Spec/Sign.v
theories/Proof/Sign.v
theories/Props/Sign.v
theories/Model/Secure.v
theories/Spec/Secure.v
theories/Proof/Secure.v
theories/Props/Secure.v
theories/Model/Save.v
theories/Spec/Save.v
theories/Proof/Save.v
theories/Proof/SaveOk.v
theories/Props/Save.v
theories/Model/Entries.v
theories/Spec/Entries.v
theories/Proof/Entries.v
theories/Props/Entries.v
theories/Model/DocMap.v
theories/Spec/DocMap.v
theories/Proof/DocMap.v
theories/Props/DocMap.v
theories/Model/Kinds.v
theories/Spec/Kinds.v
theories/Proof/Kinds.v
theories/Props/Kinds.v
theories/Model/Loading.v
theories/Spec/Loading.v
theories/Proof/Loading.v
theories/Props/Loading.v
theories/Model/StreamFile.v
theories/Spec/StreamFile.v
theories/Proof/StreamFile.v
theories/Props/StreamFile.v
theories/Model/SaveStream.v
theories/Spec/SaveStream.v
theories/Proof/SaveStream.v
theories/Props/SaveStream.v
theories/Model/Errors.v
theories/Spec/Errors.v
theories/Proof/Errors.v
theories/Props/Errors.v
theories/Model/MemStream.v
theories/Spec/MemStream.v
theories/Proof/MemStream.v
theories/Props/MemStream.v
theories/Model/Reals.v
theories/Spec/Reals.v
theories/Proof/Reals.v
theories/Props/Reals.v
theories/Model/Protect.v
theories/Spec/Protect.v
theories/Props/Protect.v
theories/Model/SignForm.v
theories/Spec/SignForm.v
theories/Proof/SignForm.v
theories/Props/SignForm.v
theories/Model/Threads.v
theories/Spec/Threads.v
theories/Proof/Threads.v
theories/Props/Threads.v
theories/Model/Exempt.v
theories/Spec/Exempt.v
theories/Proof/Exempt.v
theories/Props/Exempt.v
theories/Model/Hybrid.v
theories/Spec/Hybrid.v
theories/Proof/Hybrid.v
theories/Props/Hybrid.v
theories/Model/Misnumber.v
theories/Spec/Misnumber.v
theories/Proof/Misnumber.v
theories/Props/Misnumber.v
theories/Model/Keys.v
theories/Spec/Keys.v
theories/Proof/Keys.v
theories/Props/Keys.v
theories/Model/Iterators.v
theories/Spec/Iterators.v
theories/Proof/Iterators.v
theories/Props/Iterators.v
theories/Model/References.v
theories/Spec/References.v
theories/Proof/References.v
theories/Props/References.v
theories/Model/Resave.v
theories/Spec/Resave.v
theories/Proof/Resave.v
theories/Props/Resave.v
theories/Model/NewDoc.v
theories/Spec/NewDoc.v
theories/Proof/Orderly.v
theories/Proof/NewDoc.v
theories/Props/NewDoc.v
theories/Model/Zlib.v
theories/Spec/Zlib.v
theories/Proof/Zlib.v
theories/Props/Zlib.v
theories/Model/Images.v
theories/Spec/Images.v
theories/Proof/Images.v
theories/Props/Images.v
theories/Model/Observers.v
theories/Spec/Observers.v
theories/Proof/Observers.v
theories/Props/Observers.v
theories/Model/PubKey.v
theories/Spec/PubKey.v
theories/Proof/PubKey.v
theories/Props/PubKey.v
theories/Model/License.v
theories/Spec/License.v
theories/Proof/License.v
theories/Props/License.v
theories/Model/StringDests.v
theories/Spec/StringDests.v
theories/Proof/StringDests.v
theories/Props/StringDests.v
theories/Spec/StreamUpdate.v
theories/Proof/StreamUpdate.v
theories/Props/StreamUpdate.v
theories/Model/Boundary.v
theories/Model/Interface.v
theories/Spec/Boundary.v
theories/Proof/Boundary.v
theories/Props/Boundary.v
theories/Model/HybridSave.v
theories/Spec/HybridSave.v
theories/Proof/HybridSave.v
theories/Props/HybridSave.v
theories/Model/Indexes.v
theories/Spec/Indexes.v
theories/Proof/Indexes.v
theories/Props/Indexes.v
theories/Spec/Crash.v
theories/Proof/Crash.v
theories/Props/Crash.v
theories/Model/Operators.v
theories/Spec/Operators.v
theories/Proof/Operators.v
theories/Props/Operators.v
theories/Model/SavePath.v
theories/Spec/SavePath.v
theories/Proof/SavePath.v
theories/Props/SavePath.v
theories/Model/Conforming.v
theories/Spec/Conforming.v
theories/Proof/Conforming.v
theories/Props/Conforming.v
theories/Spec/Written.v
theories/Proof/Written.v
theories/Props/Written.v
theories/Model/Compressed.v
theories/Spec/Compressed.v
theories/Proof/Compressed.v
theories/Props/Compressed.v
theories/Spec/WrittenStream.v
theories/Proof/WrittenStream.v
theories/Props/WrittenStream.v
theories/Model/StandardSave.v
theories/Spec/StandardSave.v
theories/Proof/StandardSave.v
theories/Props/StandardSave.v
theories/Model/SharedLength.v
theories/Spec/SharedLength.v
theories/Proof/SharedLength.v
theories/Props/SharedLength.v
theories/Model/UpdateLength.v
theories/Spec/UpdateLength.v
theories/Proof/UpdateLength.v
theories/Props/UpdateLength.v
theories/Spec/PackedSave.v
theories/Proof/PackedSave.v
theories/Props/PackedSave.v
theories/Model/Watermark.v
theories/Spec/Watermark.v
theories/Proof/Watermark.v
theories/Props/Watermark.v
theories/Model/MarkedSave.v
theories/Spec/MarkedSave.v
theories/Proof/MarkedSave.v
theories/Props/MarkedSave.v
theories/Model/MarkedResave.v
theories/Spec/MarkedResave.v
theories/Proof/MarkedResave.v
theories/Props/MarkedResave.v
