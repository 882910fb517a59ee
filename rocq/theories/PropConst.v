(* The numbers of the model are those of the vfio-user protocol, of PCI and of Linux, which the theorems name by constants.
   include/vfio-user.h, include/pci_defs.h, include/libvfio-user.h, lib/private.h:44-62, <linux/vfio.h>, <linux/pci_regs.h>,
   <errno.h>. *)
From Coq Require Import NArith ZArith List.
From Verif Require Import Base Types Dma Dirty Migr Irq Pci Handlers Server Setup Sock Tran Pipe Wire Xfer.
Import ListNotations.
Open Scope N_scope.

(* vfio-user commands 1 to 18; 14 is not used and 15, REGION_WRITE_MULTI, is not served. *)
Example commands : [CMD_VERSION; CMD_DMA_MAP; CMD_DMA_UNMAP; CMD_GET_INFO; CMD_GET_REGION_INFO; CMD_GET_REGION_IO_FDS;
    CMD_GET_IRQ_INFO; CMD_SET_IRQS; CMD_REGION_READ; CMD_REGION_WRITE; CMD_DMA_READ; CMD_DMA_WRITE; CMD_RESET; CMD_FEATURE;
    CMD_MIG_READ; CMD_MIG_WRITE] = [1; 2; 3; 4; 5; 6; 7; 8; 9; 10; 11; 12; 13; 16; 17; 18].
Proof. reflexivity. Qed.

Example message_flags : [F_TYPE_MASK; F_TYPE_COMMAND; F_TYPE_REPLY; F_NO_REPLY; F_ERROR] = [15; 0; 1; 16; 32].
Proof. reflexivity. Qed.

Example limits : [MAX_DMA_SIZE; N.of_nat MAX_DMA_REGIONS; MAX_XFER; SERVER_MAX_XFER; DEFAULT_XFER; SERVER_MAX_MSG_SIZE; SERVER_MAX_FDS;
    Z.to_N CLIENT_MAX_FDS_LIMIT; SERVER_MAX_ERROR_NO; N.of_nat VFU_MAX_CAPS; SUN_PATH; PAGE_SIZE; LIB_MAJOR; LIB_MINOR] =
  [8 * 2 ^ 40; 64; 2 ^ 20; 2 ^ 20; 2 ^ 20; 2 ^ 20 + 32; 8; 1024; 4096; 128; 108; 4096; 0; 2].
Proof. reflexivity. Qed.

Example interrupts : [IRQ_DATA_NONE; IRQ_DATA_BOOL; IRQ_DATA_EVENTFD; IRQ_ACTION_MASK; IRQ_ACTION_UNMASK; IRQ_ACTION_TRIGGER;
    IRQ_DATA_TYPE_MASK; IRQ_ACTION_TYPE_MASK; IRQ_INTX; IRQ_MSI; IRQ_MSIX; IRQ_ERR; IRQ_REQ; NUM_IRQS] =
  [1; 2; 4; 8; 16; 32; 7; 56; 0; 1; 2; 3; 4; 5].
Proof. reflexivity. Qed.

Example migration_states : [ST_ERROR; ST_STOP; ST_RUNNING; ST_STOP_COPY; ST_RESUMING; ST_RUNNING_P2P; ST_PRE_COPY; ST_PRE_COPY_P2P; NUM_STATES] =
  [0; 1; 2; 3; 4; 5; 6; 7; 8].
Proof. reflexivity. Qed.

Example features : [FEATURE_MASK; FEATURE_GET; FEATURE_SET; FEATURE_PROBE; FEATURE_MIGRATION; FEATURE_MIG_DEVICE_STATE;
    FEATURE_DMA_LOGGING_START; FEATURE_DMA_LOGGING_STOP; FEATURE_DMA_LOGGING_REPORT; MIGRATION_STOP_COPY; MIGRATION_PRE_COPY] =
  [65535; 65536; 131072; 262144; 1; 2; 6; 7; 8; 1; 4].
Proof. reflexivity. Qed.

Example regions : [REGION_FLAG_READ; REGION_FLAG_WRITE; REGION_FLAG_MEM; REGION_FLAG_ALWAYS_CB; REGION_FLAG_64_BITS; REGION_FLAG_PREFETCH;
    REGION_FLAG_MASK; CFG_REGION; UNMAP_DIRTY; UNMAP_ALL; PROT_READ; PROT_WRITE; TRANS_SOCK; DEV_TYPE_PCI] =
  [1; 2; 4; 8; 16; 32; 63; 7; 1; 2; 1; 2; 0; 0].
Proof. reflexivity. Qed.

Example pci : [PCI_STD_HEADER_SIZEOF; PCI_CFG_SPACE_SIZE; PCI_CFG_SPACE_EXP_SIZE; PCI_CAP_ID_PM; PCI_CAP_ID_MSI; PCI_CAP_ID_VNDR;
    PCI_CAP_ID_EXP; PCI_CAP_ID_MSIX; PCI_EXT_CAP_ID_DSN; PCI_EXT_CAP_ID_VNDR; CAP_FLAG_EXTENDED; CAP_FLAG_CALLBACK; CAP_FLAG_READONLY] =
  [64; 256; 4096; 1; 5; 9; 16; 17; 3; 11; 1; 2; 4].
Proof. reflexivity. Qed.

Example errors : [EPERM; ENOENT; EIO; EBADF; EAGAIN; ENOMEM; EACCES; EFAULT; EBUSY; EEXIST; EINVAL; ENOSPC; EPIPE; ENAMETOOLONG; ENOMSG; EPROTO;
    ENOTSUP; EADDRINUSE; ECONNRESET; ENOTCONN] =
  [1; 2; 5; 9; 11; 12; 13; 14; 16; 17; 22; 28; 32; 36; 42; 71; 95; 98; 104; 107].
Proof. reflexivity. Qed.
