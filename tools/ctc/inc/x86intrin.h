/* the rotation of a byte, as in the fallback of compat.h */
static inline unsigned char __rolb(unsigned char n, int c) { return (n << (c & 7)) | (n >> ((-c) & 7)); }
static inline unsigned char __rorb(unsigned char n, int c) { return (n >> (c & 7)) | (n << ((-c) & 7)); }
