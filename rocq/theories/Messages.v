(** The texts of errors: the [Display] implementations of crates/volaris-tools and
    the messages crates/volaris-cli makes itself.  [main] returns the error, and the
    standard library prints it to standard error. *)
From Coq Require Import List ZArith String.
From Verif Require Import Bytes Outcome EncDec KeyOps HeaderOps Overwrite Hash FS Erase Archive Cli CliTools.
Import ListNotations.
Local Open Scope string_scope.

(** volaris-tools encrypt.rs lines 26-39 *)
Definition enc_text (e : enc_error) : string :=
  match e with
  | EncResetCursorPosition => "Unable to reset cursor position"
  | EncHashKey => "Cannot hash raw key"
  | EncEncryptMasterKey => "Cannot encrypt master key"
  | EncEncryptFile => "Cannot encrypt file"
  | EncWriteHeader => "Cannot write header"
  | EncInitializeStreams => "Cannot initialize streams"
  | EncInitializeCiphers => "Cannot initialize chiphers"
  | EncCreateAad => "Cannot create AAD"
  end.

(** decrypt.rs lines 25-38 *)
Definition dec_text (e : dec_error) : string :=
  match e with
  | DecInitializeCiphers => "Cannot initialize chiphers"
  | DecInitializeStreams => "Cannot initialize streams"
  | DecDeserializeHeader => "Cannot deserialize header"
  | DecReadEncryptedData => "Unable to read encrypted data"
  | DecDecryptMasterKey => "Cannot decrypt master key"
  | DecDecryptData => "Unable to decrypt data"
  | DecWriteData => "Unable to write data"
  | DecRewindDataReader => "Unable to rewind the reader"
  end.

(** key.rs lines 28-47; [HeaderSizeParse] is never made and has no constructor. *)
Definition key_text (e : key_error) : string :=
  match e with
  | KSeek => "Unable to seek the data's cursor"
  | KHeaderWrite => "Unable to write the header"
  | KHeaderDeserialize => "Unable to deserialize the header"
  | KCipherInit => "Unable to initialize a cipher"
  | KKeyHash => "Unable to hash your key"
  | KTooManyKeyslots => "There are already too many populated keyslots within this file"
  | KMasterKeyEncrypt => "Unable to encrypt master key"
  | KUnsupported => "The provided request is unsupported with this header version"
  | KIncorrectKey => "The provided key is incorrect"
  end.

(** header.rs lines 17-29; [HeaderSizeParse] is never made and has no constructor. *)
Definition hop_text (e : hop_error) : string :=
  match e with
  | HopUnsupportedRestore => "The provided request is unsupported with this file. It maybe isn't an encrypted file, or it was encrypted in detached mode."
  | HopInvalidFile => "The file does not contain a valid volaris header."
  | HopWrite => "Unable to write the data."
  | HopRead => "Unable to read the data."
  | HopRewind => "Unable to rewind the stream."
  end.

(** storage.rs lines 16-20, 35-49: the derived [Debug] of [FileMode] is its name. *)
Definition st_text (e : st_error) : string :=
  match e with
  | StCreateDir => "Unable to create a new directory"
  | StCreateFile => "Unable to create a new file"
  | StOpenRead => "Unable to read the file in Read mode"
  | StOpenWrite => "Unable to read the file in Write mode"
  | StFlushFile => "Unable to flush the file"
  | StRemoveFile => "Unable to remove the file"
  | StRemoveDir => "Unable to remove dir"
  | StDirEntries => "Unable to read directory"
  | StFileAccess => "Permission denied"
  | StFileLen => "Unable to get file length"
  end.

(** overwrite.rs lines 20-29 *)
Definition ow_text (e : ow_error) : string :=
  match e with
  | OwResetCursorPosition => "Unable to reset cursor position"
  | OwOverwriteWithRandomBytes => "Unable to overwrite with random bytes"
  | OwOverwriteWithZeros => "Unable to overwrite with zeros"
  | OwFlushFile => "Unable to flush"
  end.

(** erase.rs lines 18-26 *)
Definition erase_text (e : erase_error) : string :=
  match e with
  | EraOpenFile => "Unable to open file"
  | EraOverwrite i => "Unable to overwrite file: " ++ ow_text i
  | EraRemoveFile => "Unable to remove file"
  end.

(** erase_dir.rs lines 18-27 *)
Definition erase_dir_text (e : erase_dir_error) : string :=
  match e with
  | EdInvalidFileType => "Invalid file type"
  | EdEraseFile i => "Unable to erase file: " ++ erase_text i
  | EdReadDirEntries => "Unable to get all dir entries"
  | EdRemoveDir => "Unable to remove directory recursively"
  end.

(** hash.rs lines 18-25 *)
Definition hash_text (e : hash_error) : string :=
  match e with
  | HashResetCursorPosition => "Unable to reset cursor position"
  | HashReadData => "Unable to read data"
  end.

(** pack.rs lines 29-41 *)
Definition pack_text (e : pack_error) : string :=
  match e with
  | PkCreateArchive => "Unable to create archive"
  | PkAddDirToArchive => "Unable to add directory to archive"
  | PkAddFileToArchive => "Unable to add file to archive"
  | PkFinishArchive => "Unable to finish archive"
  | PkReadData => "Unable to read data"
  | PkWriteData => "Unable to write data"
  | PkEncrypt i => "Unable to encrypt archive: " ++ enc_text i
  end.

(** unpack.rs lines 24-35 *)
Definition unpack_text (e : unpack_error) : string :=
  match e with
  | UnWriteData => "Unable to write data"
  | UnOpenArchive => "Unable to open archive"
  | UnOpenArchivedFile => "Unable to open archived file"
  | UnResetCursorPosition => "Unable to reset cursor position"
  | UnStorage i => "Storage error: " ++ st_text i
  | UnDecrypt i => "Decrypt error: " ++ dec_text i
  end.

(** What the program says of an error: its own text, without what the operating
    system adds ("Caused by").  volaris-cli: subcommands/encrypt.rs lines 25-29,
    pack.rs lines 40-48, states.rs lines 69-75, 86, 95, 100-101, 117, 148-150,
    prompt.rs lines 65-71.  [None]: nothing is said ([exit(0)]), the error is made by
    the oracle for files open under two handles, or the model does not keep what the
    text depends on: a name, or which of several calls failed. *)
Definition cli_text (e : cli_error) : option string :=
  match e with
  | CExit | CAlias | CAnswer | CKeyfile | CEmptyKeyfile | CMissing | CHashOpen => None
  | CSameName => Some "Input and output files cannot have the same name."
  | CInputIsFile => Some "Input path cannot be a file."
  | CStorage i => Some (st_text i)
  | CEncrypt i => Some (enc_text i)
  | CDecrypt i => Some (dec_text i)
  | CPack i => Some (pack_text i)
  | CUnpack i => Some (unpack_text i)
  | CErase i => Some (erase_text i)
  | CEraseDir i => Some (erase_dir_text i)
  | CPassword => Some "Unable to read password"
  | CEmptyStdin => Some "STDIN is empty"
  | CEmptyKey => Some "The specified key is empty!"
  | CEnvironment => Some "Unable to read VOLARIS_KEY from environment variable"
  | CNoKeySource => Some "No key sources found with the parameters/arguments provided"
  | CHash i => Some (hash_text i)
  end.

(** The line printed for it: [Termination for Result] (std) writes "Error: " and the
    [Debug] of the error, which for anyhow begins with its text. *)
Definition error_line (e : cli_error) : option string :=
  match cli_text e with Some t => Some ("Error: " ++ t) | None => None end.
